(** C48: what the driver runs on which Hamiltonian, over all sequences of calls. *)
From Coq Require Import List Arith Bool String Ascii Lia.
From Verif Require Import DriverModel.
Import ListNotations.
Open Scope string_scope.
Open Scope nat_scope.

(** ** Frames: attributes a step does not touch *)
Definition same_core (d d' : drv) : Prop := d_ham d' = d_ham d /\ d_flag d' = d_flag d /\ d_rhf d' = d_rhf d /\ d_solver d' = d_solver d /\ d_fock d' = d_fock d.
Lemma core_refl d : same_core d d. Proof. repeat split. Qed.
Lemma core_trans a b c : same_core a b -> same_core b c -> same_core a c.
Proof. intros (A1 & A2 & A3 & A4 & A5) (B1 & B2 & B3 & B4 & B5). repeat split; congruence. Qed.
Lemma sop_core d m : same_core d (set_operator_params d m).
Proof. unfold set_operator_params. repeat match goal with |- context [if ?b then _ else _] => destruct b end; repeat split. Qed.
Lemma sop_vecs d m : d_T (set_operator_params d m) = d_T d /\ d_L (set_operator_params d m) = d_L d /\ d_R (set_operator_params d m) = d_R d /\ d_guess (set_operator_params d m) = d_guess d.
Proof. unfold set_operator_params. repeat match goal with |- context [if ?b then _ else _] => destruct b end; repeat split. Qed.
Lemma fill_R_core o states : forall d, same_core d (fst (fill_R d o states)).
Proof.
  induction states as [|i l IH]; intros d; cbn [fill_R]; [apply core_refl|]. destruct (d_R d i); [apply IH|].
  destruct (d_guess d); [|repeat split]. eapply core_trans; [|apply IH]. repeat split.
Qed.
Lemma fill_L_core g o states : forall d, same_core d (fst (fill_L g d o states)).
Proof.
  induction states as [|i l IH]; intros d; cbn [fill_L]; [apply core_refl|]. destruct (d_L d i); [apply IH|].
  destruct (if g && (i =? 0) then d_T d else d_R d i); [|repeat split]. eapply core_trans; [|apply IH]. repeat split.
Qed.
Lemma each_in f fin states e : In e (fst (each f fin states)) -> exists i, In i states /\ e = f i.
Proof.
  induction states as [|i l IH]; cbn [each]; [intros []|]. destruct (fin i).
  - destruct (each f fin l) as [es b]. cbn [fst]. intros [<-|H]; [exists i; split; [now left|reflexivity]|]. destruct (IH H) as (j & Hj & ->). exists j. split; [now right|reflexivity].
  - intros [<-|[]]. exists i. split; [now left|reflexivity].
Qed.

(** What every call guarantees about the routines it runs: all see the Hamiltonian and RHF flag of the state [q] *)
Definition seen (d : drv) (s : step) (m : string) (es : list event) : Prop :=
  forall e, In e es -> e_step e = s /\ e_method e = m /\ e_ham e = d_ham d /\ e_rhf e = d_rhf d.
Lemma solve_R_ok s m d o states fin : let '(d', es, _) := solve_R s m d o states fin in same_core d d' /\ seen d s m es.
Proof.
  unfold solve_R. pose proof (fill_R_core o states d) as C. destruct (fill_R d o states) as [d' ok]. cbn [fst] in C. destruct ok; [|split; [exact C|intros ? []]].
  pose proof (each_in (fun i => ev s m d' (d_R d' i)) fin states) as K. destruct (each _ fin states) as [es b]. cbn [fst] in K. split; [exact C|].
  intros e He. destruct (K e He) as (i & _ & ->). destruct C as (C1 & _ & C3 & _). cbn. auto.
Qed.
Lemma solve_L_ok s m d o states fin : let '(d', es, _) := solve_L s m d o states fin in same_core d d' /\ seen d s m es.
Proof.
  unfold solve_L. pose proof (fill_L_core false o states d) as C. destruct (fill_L false d o states) as [d' ok]. cbn [fst] in C. destruct ok; [|split; [exact C|intros ? []]].
  pose proof (each_in (fun i => ev s m d' (d_L d' i)) fin states) as K. destruct (each _ fin states) as [es b]. cbn [fst] in K. split; [exact C|].
  intros e He. destruct (K e He) as (i & _ & ->). destruct C as (C1 & _ & C3 & _). cbn. auto.
Qed.
Lemma left_loop_ok s m o fin states : forall d, let '(d', es, _) := left_loop s m d o states fin in same_core d d' /\ seen d s m es.
Proof.
  induction states as [|i l IH]; intros d; cbn [left_loop]; [split; [apply core_refl|intros ? []]|].
  pose proof (fill_L_core true o [i] d) as C. destruct (fill_L true d o [i]) as [d1 ok]. cbn [fst] in C. destruct ok; cbn [negb]; [|split; [exact C|intros ? []]].
  destruct C as (C1 & C2 & C3 & C4 & C5). destruct (fin i).
  - specialize (IH d1). destruct (left_loop s m d1 o l fin) as [[d2 es] b]. destruct IH as ((E1 & E2 & E3 & E4 & E5) & S2). split; [repeat split; congruence|].
    intros e [<-|He]; [cbn; auto|]. destruct (S2 e He) as (A & B & C & D). repeat split; congruence.
  - split; [repeat split; assumption|]. intros e [<-|[]]. cbn. auto.
Qed.
Lemma corr1_ok m d i fin : let '(d', es, _) := corr1 m d i fin in same_core d d' /\ seen d SCorr m es.
Proof.
  unfold corr1. destruct (d_L d i); [|split; [apply core_refl|intros ? []]]. destruct (negb (i =? 0) && _); [split; [apply core_refl|intros ? []]|].
  destruct fin; (split; [repeat split|intros e [<-|[]]; cbn; auto]).
Qed.
Lemma corr_loop_ok m fin states : forall d, let '(d', es, _) := corr_loop m d states fin in same_core d d' /\ seen d SCorr m es.
Proof.
  induction states as [|i l IH]; intros d; cbn [corr_loop]; [split; [apply core_refl|intros ? []]|].
  pose proof (corr1_ok m d i (fin i)) as C. destruct (corr1 m d i (fin i)) as [[d1 es] b]. destruct C as [C S1]. destruct b; [|now split].
  specialize (IH d1). destruct (corr_loop m d1 l fin) as [[d2 es'] b']. destruct IH as [C2 S2]. split; [eapply core_trans; eassumption|].
  intros e He. apply in_app_iff in He as [He|He]; [auto|]. destruct (S2 e He) as (A & B & D & E). destruct C as (C1 & _ & C3 & _). repeat split; congruence.
Qed.
(** Hamiltonians obtained by removing V*T3 terms [n] times *)
Fixpoint strip_n (n : nat) (h : ham) : ham := match n with 0 => h | S n => NoVT3 (strip_n n h) end.
Lemma strip_ok d tb d' : strip d tb = Some d' -> (d' = d \/ d' = with_ham d (NoVT3 (d_ham d)) (d_flag d) (d_fock d)).
Proof. unfold strip. destruct tb; [|intros E; left; congruence]. destruct (d_L d 0); [|discriminate]. intros E. injection E as <-. destruct (2 <? o_ord o); tauto. Qed.
Definition nearly (d d' : drv) : Prop := (exists n, d_ham d' = strip_n n (d_ham d)) /\ d_flag d' = d_flag d /\ d_rhf d' = d_rhf d /\ d_solver d' = d_solver d /\ d_fock d' = d_fock d.
Lemma core_nearly d d' : same_core d d' -> nearly d d'.
Proof. intros (A & B & C & D & E). split; [exists 0; exact A|auto]. Qed.
Lemma strip_n_add n m h : strip_n n (strip_n m h) = strip_n (n + m) h.
Proof. induction n; cbn; congruence. Qed.
Lemma nearly_trans a b c : nearly a b -> nearly b c -> nearly a c.
Proof. intros ((n & A) & A1) ((m & B) & B1). split; [exists (m + n); rewrite B, A; apply strip_n_add|]. intuition congruence. Qed.
Lemma strip_nearly d tb d' : strip d tb = Some d' -> nearly d d'.
Proof. intros H. apply strip_ok in H as [->| ->]; [apply core_nearly, core_refl|]. split; [exists 1; reflexivity|cbn; auto]. Qed.
Definition seen_nearly (d : drv) (s : step) (es : list event) : Prop :=
  forall e, In e es -> e_step e = s /\ (exists n, e_ham e = strip_n n (d_ham d)) /\ e_rhf e = d_rhf d.
Lemma cct3_loop_ok tb fin states : forall d, let '(d', es, _) := cct3_loop d tb states fin in nearly d d' /\ seen_nearly d SCorr es /\ forall e, In e es -> e_method e = "cct3".
Proof.
  induction states as [|i l IH]; intros d; cbn [cct3_loop]; [split; [apply core_nearly, core_refl|split; intros ? []]|].
  destruct (strip d tb) as [d1|] eqn:E; [|split; [apply core_nearly, core_refl|split; intros ? []]]. apply strip_nearly in E.
  assert (K : let '(d2, es, b) := (if (i =? 0) && negb tb then (d1, [], true) else corr1 "cct3" d1 i (fin i)) in same_core d1 d2 /\ seen d1 SCorr "cct3" es).
  { destruct ((i =? 0) && negb tb); [split; [apply core_refl|intros ? []]|apply corr1_ok]. }
  destruct (if (i =? 0) && negb tb then (d1, [], true) else corr1 "cct3" d1 i (fin i)) as [[d2 es] b]. destruct K as [C S1].
  assert (N : nearly d d2) by (eapply nearly_trans; [exact E|now apply core_nearly]).
  assert (SN : seen_nearly d SCorr es /\ forall e, In e es -> e_method e = "cct3").
  { split; intros e He; destruct (S1 e He) as (A & B & C' & D'); [|exact B]. destruct E as ((n & E) & _ & E3 & _). split; [exact A|]. split; [exists n|]; congruence. }
  destruct b; [|split; [exact N|exact SN]]. specialize (IH d2). destruct (cct3_loop d2 tb l fin) as [[d3 es'] b']. destruct IH as (N2 & S2 & M2).
  split; [eapply nearly_trans; eassumption|]. destruct SN as [SN MN]. split; intros e He; apply in_app_iff in He as [He|He]; auto.
  destruct (S2 e He) as (A & (m & B) & C'). destruct N as ((n & N) & _ & N3 & _). split; [exact A|]. split; [exists (m + n); rewrite B, N; apply strip_n_add|congruence].
Qed.

(** ** One call *)
Definition is_hb (c : cmd) : bool := match c with Hb _ _ => true | _ => false end.
(** A call other than run_hbar leaves the Hamiltonian alone up to the removal of V*T3 terms, which needs flag_hbar; its routines see that Hamiltonian *)
Definition guarded (s : step) : bool := match s with SLR | SEomMulti | SEom | SSf | SFock | SFockP | SLeft | SLeftEom | SLeftP | SLeftFock | SLeftFockP => true | _ => false end.
Definition good_events (d : drv) (es : list event) : Prop := forall e, In e es ->
  (exists n, e_ham e = strip_n n (d_ham d) /\ (n > 0 -> d_flag d = true)) /\
  (guarded (e_step e) = true -> d_flag d = true) /\
  (e_step e = SCorr -> if isin (e_method e) ["ccsd(t)"] then d_flag d = false /\ e_ham e = d_ham d else d_flag d = true) /\
  (e_rhf e = true -> d_rhf d = true).
Definition good_next (d d' : drv) : Prop :=
  (exists n, d_ham d' = strip_n n (d_ham d) /\ (n > 0 -> d_flag d = true)) /\ d_flag d' = d_flag d /\ (d_rhf d' = true -> d_rhf d = true) /\ (d_solver d' = d_solver d \/ d_solver d' = "diis") /\ d_fock d' = d_fock d.
Lemma core_next d d' : same_core d d' -> good_next d d'.
Proof. intros (A & B & C & D & E). split; [exists 0; split; [exact A|lia]|]. repeat split; try assumption; [congruence|now left]. Qed.
Lemma nearly_next d d' : d_flag d = true -> nearly d d' -> good_next d d'.
Proof. intros F ((n & A) & B & C & D & E). split; [exists n; auto|]. repeat split; try assumption; [congruence|now left]. Qed.
Lemma seen_good d d1 s m es : same_core d d1 -> seen d1 s m es -> s <> SCorr -> (guarded s = true -> d_flag d1 = true) -> good_events d es.
Proof.
  intros (A & B & C & D & E) S1 NC G e He. destruct (S1 e He) as (E1 & E2 & E3 & E4). split; [exists 0; split; [cbn; congruence|lia]|].
  split; [rewrite E1; intros; rewrite <- B; auto|]. split; [congruence|]. congruence.
Qed.
Lemma nil_good d : good_events d []. Proof. intros ? []. Qed.
Ltac fin_raise := split; [apply core_next; try apply core_refl; try apply sop_core|apply nil_good].
Ltac use_R d m := match goal with |- context [solve_R ?s ?mm ?dd ?o ?l ?f] => let K := fresh in pose proof (solve_R_ok s mm dd o l f) as K; destruct (solve_R s mm dd o l f) as [[? ?] ?]; destruct K end.
Ltac use_L d m := match goal with |- context [solve_L ?s ?mm ?dd ?o ?l ?f] => let K := fresh in pose proof (solve_L_ok s mm dd o l f) as K; destruct (solve_L s mm dd o l f) as [[? ?] ?]; destruct K end.
Lemma call_good d c : is_hb c = false -> let '(d', es, _) := call d c in good_next d d' /\ good_events d es.
Proof.
  intros NH. destruct c; try discriminate; cbn [call]; clear NH.
  - (* run_cc *) unfold run_cc. destruct (isin m cc_modules); cbn [negb]; [|fin_raise]. destruct (_ && _); [fin_raise|].
    pose proof (sop_core d m) as C. destruct (d_T (set_operator_params d m)) eqn:ET.
    + split; [now apply core_next|]. apply (seen_good d (set_operator_params d m) SCC m); [exact C| |discriminate|discriminate]. intros e [<-|[]]. cbn. auto.
    + split; [apply core_next; destruct C as (C1 & C2 & C3 & C4 & C5); repeat split; assumption|]. apply (seen_good d (set_operator_params d m) SCC m); [exact C| |discriminate|discriminate]. intros e [<-|[]]. cbn. auto.
  - (* run_ccp *) unfold run_ccp. destruct (isin m cc_modules); cbn [negb]; [|fin_raise]. destruct (_ && _); [fin_raise|].
    pose proof (sop_core d m) as C. destruct (d_T (set_operator_params d m)) eqn:ET.
    + split; [now apply core_next|]. apply (seen_good d (set_operator_params d m) SCCP m); [exact C| |discriminate|discriminate]. intros e [<-|[]]. cbn. auto.
    + split; [apply core_next; destruct C as (C1 & C2 & C3 & C4 & C5); repeat split; assumption|]. apply (seen_good d (set_operator_params d m) SCCP m); [exact C| |discriminate|discriminate]. intros e [<-|[]]. cbn. auto.
  - (* run_lrcc *) unfold run_lrcc. destruct (isin m lr_modules); cbn [negb]; [|fin_raise]. destruct (d_flag d) eqn:F; cbn [negb]; [|fin_raise].
    pose proof (sop_core d m) as C. split; [now apply core_next|]. apply (seen_good d (set_operator_params d m) SLR m); [exact C| |discriminate|destruct C as (_ & C2 & _); congruence]. intros e [<-|[]]. cbn. auto.
  - (* run_guess *) unfold run_guess. destruct (isin m guess_modules); cbn [negb]; [|fin_raise]. split.
    + split; [exists 0; split; [reflexivity|lia]|]. split; [reflexivity|]. split; [cbn; destruct (mult =? 1); [auto|discriminate]|]. split; [now left|reflexivity].
    + intros e [<-|[]]. split; [exists 0; split; [reflexivity|lia]|]. split; [discriminate|]. split; [discriminate|]. cbn. destruct (mult =? 1); [auto|discriminate].
  - (* run_eomcc *) unfold run_eomcc. destruct (isin m eom_modules); cbn [negb]; [|fin_raise].
    pose proof (sop_core d m) as C. set (d1 := if isin m ["eomcc3"] then with_solver (set_operator_params d m) "diis" else set_operator_params d m).
    assert (C1 : d_ham d1 = d_ham d /\ d_flag d1 = d_flag d /\ d_rhf d1 = d_rhf d /\ (d_solver d1 = d_solver d \/ d_solver d1 = "diis") /\ d_fock d1 = d_fock d).
    { destruct C as (C1 & C2 & C3 & C4 & C5). unfold d1. destruct (isin m ["eomcc3"]); cbn; auto 8. }
    assert (GN : forall d2, same_core d1 d2 -> good_next d d2).
    { intros d2 (A & B & C' & D & E). destruct C1 as (C1 & C2 & C3 & C4 & C5). split; [exists 0; split; [cbn; congruence|lia]|]. split; [congruence|]. split; [congruence|]. split; [rewrite D; exact C4|congruence]. }
    destruct (d_flag d1) eqn:F; cbn [negb]; [|split; [apply GN, core_refl|apply nil_good]].
    pose proof (fill_R_core (cluster d1) l d1) as C2. destruct (fill_R d1 (cluster d1) l) as [d2 ok]. cbn [fst] in C2.
    destruct ok; cbn [negb]; [|split; [now apply GN|apply nil_good]]. destruct (_ && _); [split; [now apply GN|apply nil_good]|].
    pose proof (each_in (fun i => ev SEom m d2 (d_R d2 i)) fin l) as K. destruct (each _ fin l) as [es b]. cbn [fst] in K. split; [now apply GN|].
    intros e He. destruct (K e He) as (i & _ & ->). destruct C2 as (A1 & A2 & A3 & _), C1 as (B1 & B2 & B3 & _). cbn. split; [exists 0; split; [cbn; congruence|lia]|]. split; [congruence|]. split; [discriminate|congruence].
  - (* run_eomccp *) unfold run_eomccp. destruct (isin m eom_modules); cbn [negb]; [|fin_raise]. destruct (_ && _); [fin_raise|]. pose proof (sop_core d m) as C. use_R d m.
    split; [apply core_next; eapply core_trans; eassumption|]. eapply (seen_good d (set_operator_params d m)); [eassumption|eassumption|discriminate|discriminate].
  - (* run_eomcc_multiroot *) unfold run_eomcc_multiroot. destruct (isin m eom_modules); cbn [negb]; [|fin_raise]. pose proof (sop_core d m) as C. destruct (d_flag (set_operator_params d m)) eqn:F; cbn [negb]; [|fin_raise].
    destruct (_ && _); [fin_raise|]. use_R d m. split; [apply core_next; eapply core_trans; eassumption|]. eapply (seen_good d (set_operator_params d m)); [eassumption|eassumption|discriminate|auto].
  - (* run_sfeomcc *) unfold run_sfeomcc. destruct (isin m eom_modules); cbn [negb]; [|fin_raise]. pose proof (sop_core d m) as C. destruct (d_flag (set_operator_params d m)) eqn:F; cbn [negb]; [|fin_raise].
    use_R d m. split; [apply core_next; eapply core_trans; eassumption|]. eapply (seen_good d (set_operator_params d m)); [eassumption|eassumption|discriminate|auto].
  - (* run_fock *) unfold run_fock. destruct (isin m eom_modules); cbn [negb]; [|fin_raise]. pose proof (sop_core d m) as C. destruct (d_flag (set_operator_params d m)) eqn:F; cbn [negb]; [|fin_raise].
    destruct (s_np _); [|fin_raise]. destruct (s_nh _); [|fin_raise]. use_R d m. split; [apply core_next; eapply core_trans; eassumption|]. eapply (seen_good d (set_operator_params d m)); [eassumption|eassumption|discriminate|auto].
  - (* run_fock_p *) unfold run_fock_p. destruct (isin m eom_modules); cbn [negb]; [|fin_raise]. pose proof (sop_core d m) as C. destruct (d_flag (set_operator_params d m)) eqn:F; cbn [negb]; [|fin_raise].
    use_R d m. split; [apply core_next; eapply core_trans; eassumption|]. eapply (seen_good d (set_operator_params d m)); [eassumption|eassumption|discriminate|auto].
  - (* run_leftcc *) unfold run_leftcc. destruct (isin m left_modules); cbn [negb]; [|fin_raise]. pose proof (sop_core d m) as C. destruct (d_flag (set_operator_params d m)) eqn:F; cbn [negb]; [|fin_raise].
    pose proof (left_loop_ok SLeft m (cluster (set_operator_params d m)) fin l (set_operator_params d m)) as K. destruct (left_loop _ _ _ _ _ _) as [[d2 es] b]. destruct K.
    split; [apply core_next; eapply core_trans; eassumption|]. eapply (seen_good d (set_operator_params d m)); [eassumption|eassumption|discriminate|auto].
  - (* run_leftccp *) unfold run_leftccp. destruct (isin m left_modules); cbn [negb]; [|fin_raise]. pose proof (sop_core d m) as C. destruct (d_flag (set_operator_params d m)) eqn:F; cbn [negb]; [|fin_raise].
    pose proof (left_loop_ok SLeftP m (cluster_p (set_operator_params d m)) fin l (set_operator_params d m)) as K. destruct (left_loop _ _ _ _ _ _) as [[d2 es] b]. destruct K.
    split; [apply core_next; eapply core_trans; eassumption|]. eapply (seen_good d (set_operator_params d m)); [eassumption|eassumption|discriminate|auto].
  - (* run_lefteomcc *) unfold run_lefteomcc. destruct (isin m left_modules); cbn [negb]; [|fin_raise]. pose proof (sop_core d m) as C. destruct (d_flag (set_operator_params d m)) eqn:F; cbn [negb]; [|fin_raise].
    use_L d m. split; [apply core_next; eapply core_trans; eassumption|]. eapply (seen_good d (set_operator_params d m)); [eassumption|eassumption|discriminate|auto].
  - (* run_lefteomccp *) unfold run_lefteomccp. destruct (isin m left_modules); cbn [negb]; [|fin_raise]. pose proof (sop_core d m) as C. destruct (d_flag (set_operator_params d m)) eqn:F; cbn [negb]; [|fin_raise].
    use_L d m. split; [apply core_next; eapply core_trans; eassumption|]. eapply (seen_good d (set_operator_params d m)); [eassumption|eassumption|discriminate|auto].
  - (* run_leftfock *) unfold run_leftfock. destruct (isin m left_modules); cbn [negb]; [|fin_raise]. pose proof (sop_core d m) as C. destruct (d_flag (set_operator_params d m)) eqn:F; cbn [negb]; [|fin_raise].
    destruct (s_np _); [|fin_raise]. destruct (s_nh _); [|fin_raise]. use_L d m. split; [apply core_next; eapply core_trans; eassumption|]. eapply (seen_good d (set_operator_params d m)); [eassumption|eassumption|discriminate|auto].
  - (* run_leftfock_p *) unfold run_leftfock_p. destruct (isin m left_modules); cbn [negb]; [|fin_raise]. pose proof (sop_core d m) as C. destruct (d_flag (set_operator_params d m)) eqn:F; cbn [negb]; [|fin_raise].
    use_L d m. split; [apply core_next; eapply core_trans; eassumption|]. eapply (seen_good d (set_operator_params d m)); [eassumption|eassumption|discriminate|auto].
  - (* run_ccp3 *)
    assert (SC : forall d1 mm es, same_core d d1 -> d_flag d = true -> isin mm ["ccsd(t)"] = false -> seen d1 SCorr mm es -> good_events d es).
    { intros d1 mm es (A & B & C & _) F I S1 e He. destruct (S1 e He) as (E1 & E2 & E3 & E4). split; [exists 0; split; [cbn; congruence|lia]|]. rewrite E1, E2, I. split; [discriminate|]. split; [auto|congruence]. }
    unfold run_ccp3. destruct (isin m ["crcc23"; "crcc23_chol"]) eqn:I1.
    { assert (I : isin m ["ccsd(t)"] = false). { unfold isin in *. cbn [existsb] in *. destruct (String.eqb_spec (lower m) "ccsd(t)") as [E|]; [rewrite E in I1; discriminate|reflexivity]. }
      destruct (d_flag d) eqn:F; cbn [negb]; [|fin_raise]. destruct s as [i|l]; [fin_raise|]. pose proof (corr_loop_ok m fin l d) as K. destruct (corr_loop m d l fin) as [[d2 es] b]. destruct K as [K S1].
      split; [now apply core_next|]. apply (SC d m); auto using core_refl. }
    destruct (isin m ["ccsd(t)"]) eqn:I2.
    { destruct (d_flag d) eqn:F; [fin_raise|]. destruct (d_T d); [|fin_raise].
      assert (G : good_events d [ev SCorr m d (Some o)]). { intros e [<-|[]]. cbn [ev e_step e_method e_ham e_rhf]. rewrite I2. split; [exists 0; split; [reflexivity|lia]|]. split; [discriminate|]. split; [auto|auto]. }
      destruct (fin 0); (split; [apply core_next; repeat split|exact G]). }
    destruct (isin m ["cct3"]) eqn:I3.
    { destruct (d_flag d) eqn:F; cbn [negb]; [|fin_raise].
      assert (CA : same_core d (if (1 <=? num_active) && (num_active <=? 3) then with_act d (Some num_active) else d)) by (destruct (_ && _); repeat split).
      set (d1 := if (1 <=? num_active) && (num_active <=? 3) then with_act d (Some num_active) else d) in *. clearbody d1.
      destruct s as [i|l]; [split; [now apply core_next|apply nil_good]|]. pose proof (cct3_loop_ok two_body fin l d1) as K. destruct (cct3_loop d1 two_body l fin) as [[d2 es] b]. destruct K as (K & S1 & M1).
      split; [apply nearly_next; [exact F|]; eapply nearly_trans; [apply core_nearly; exact CA|exact K]|].
      intros e He. destruct (S1 e He) as (E1 & (n & E2) & E3). destruct CA as (A1 & A2 & A3 & _). split; [exists n; split; [congruence|auto]|]. rewrite E1, (M1 e He). split; [discriminate|]. split; [auto|congruence]. }
    destruct (isin m ["ccp3"]) eqn:I4.
    { destruct (d_flag d) eqn:F; cbn [negb]; [|fin_raise]. destruct (strip d two_body) as [d1|] eqn:ES; [|fin_raise]. apply strip_nearly in ES.
      destruct s as [i|l]; [|split; [now apply nearly_next|apply nil_good]]. pose proof (corr1_ok m d1 i (fin i)) as K. destruct (corr1 m d1 i (fin i)) as [[d2 es] b]. destruct K as [K S1].
      split; [apply nearly_next; [exact F|]; eapply nearly_trans; [exact ES|now apply core_nearly]|].
      intros e He. destruct (S1 e He) as (E1 & E2 & E3 & E4). destruct ES as ((n & A1) & A2 & A3 & _). split; [exists n; split; [congruence|auto]|]. rewrite E1, E2, I2. split; [discriminate|]. split; [auto|congruence]. }
    destruct (isin m ["eomccsdta_star"]) eqn:I5.
    { destruct (d_flag d) eqn:F; cbn [negb]; [|fin_raise]. destruct s as [i|l]; [fin_raise|].
      match goal with |- context [corr_loop m d ?L fin] => pose proof (corr_loop_ok m fin L d) as K; destruct (corr_loop m d L fin) as [[d2 es] b] end. destruct K as [K S1].
      split; [now apply core_next|]. apply (SC d m); auto using core_refl. }
    fin_raise.
Qed.
(** run_hbar: sets the flag, or raises *)
Lemma hb_ok d m fin : let '(d', es, ok) := run_hbar d m fin in
  (ok = true -> d_flag d' = true /\ d_ham d' = HBar (lower m) (d_ham d)) /\ (ok = false -> d_flag d' = d_flag d /\ (d_ham d' = d_ham d \/ (d_ham d' = Partly (lower m) (d_ham d) /\ fin = false))) /\
  d_rhf d' = d_rhf d /\ d_solver d' = d_solver d /\ (forall e, In e es -> e_step e = SHbar /\ e_ham e = d_ham d /\ e_rhf e = d_rhf d).
Proof.
  unfold run_hbar. destruct (isin _ hbar_modules); cbn [negb]; [|now split; [discriminate|]; split; [auto|]; split; [reflexivity|]; split; [reflexivity|intros ? []]].
  destruct (isin m ["ccs"]); [now split; [discriminate|]; split; [auto|]; split; [reflexivity|]; split; [reflexivity|intros ? []]|].
  destruct (d_T d); [|now split; [discriminate|]; split; [auto|]; split; [reflexivity|]; split; [reflexivity|intros ? []]]. destruct fin.
  - split; [auto|]. split; [discriminate|]. split; [reflexivity|]. split; [reflexivity|]. intros e [<-|[]]; auto.
  - split; [discriminate|]. split; [intros _; split; [reflexivity|]; cbn [with_ham d_ham]; destruct (inplace m); auto|]. split; [reflexivity|]. split; [reflexivity|]. intros e [<-|[]]; auto.
Qed.

(** ** The theorems *)
(** Sessions are described by what reaches the numerical routines. A Hamiltonian is similarity-transformed if it was built by run_hbar (possibly with
    the V*T3 terms removed afterwards); [Bare] is the one the driver was created with. *)
Fixpoint transformed (h : ham) : Prop := match h with Bare => False | HBar _ _ => True | Partly _ h => transformed h | NoVT3 h => transformed h end.
Definition interrupted (c : cmd) : Prop := exists m, c = Hb m false.
Lemma strip_n_trans n h : transformed h -> transformed (strip_n n h).
Proof. intros H. induction n; auto. Qed.

Lemma call_inv d c d' es ok : call d c = (d', es, ok) -> (d_flag d = true -> transformed (d_ham d)) -> d_flag d' = true -> transformed (d_ham d').
Proof.
  intros E I F. destruct (is_hb c) eqn:B.
  - destruct c; try discriminate. cbn [call] in E. pose proof (hb_ok d m fin) as K. rewrite E in K. destruct K as (K1 & K2 & _). destruct ok.
    + destruct (K1 eq_refl) as [_ ->]. exact Logic.I.
    + destruct (K2 eq_refl) as [E1 [->|[-> _]]]; rewrite E1 in F; cbn; auto.
  - pose proof (call_good d c B) as K. rewrite E in K. destruct K as (((n & -> & _) & F' & _) & _). apply strip_n_trans. apply I. congruence.
Qed.
Lemma call_flag_mono d c d' es ok : call d c = (d', es, ok) -> d_flag d = true -> d_flag d' = true.
Proof.
  intros E F. destruct (is_hb c) eqn:B.
  - destruct c; try discriminate. cbn [call] in E. pose proof (hb_ok d m fin) as K. rewrite E in K. destruct K as (K1 & K2 & _). destruct ok; [apply K1; auto|destruct (K2 eq_refl) as [-> _]; exact F].
  - pose proof (call_good d c B) as K. rewrite E in K. destruct K as ((_ & -> & _) & _). exact F.
Qed.
Lemma call_events d c d' es ok : call d c = (d', es, ok) -> (d_flag d = true -> transformed (d_ham d)) -> forall e, In e es ->
  (guarded (e_step e) = true -> transformed (e_ham e)) /\ (e_step e = SCorr -> isin (e_method e) ["ccsd(t)"] = false -> transformed (e_ham e)) /\
  (e_step e = SCorr -> isin (e_method e) ["ccsd(t)"] = true -> d_flag d = false /\ e_ham e = d_ham d) /\ (d_flag d = true -> transformed (e_ham e)).
Proof.
  intros E I e He. destruct (is_hb c) eqn:B.
  - destruct c; try discriminate. cbn [call] in E. pose proof (hb_ok d m fin) as K. rewrite E in K. destruct K as (_ & _ & _ & _ & K). destruct (K e He) as (S1 & H1 & _). rewrite S1, H1. repeat split; try discriminate. exact I.
  - pose proof (call_good d c B) as K. rewrite E in K. destruct K as (_ & K). destruct (K e He) as ((n & Eh & _) & G & C & _).
    assert (T : d_flag d = true -> transformed (e_ham e)) by (intros F; rewrite Eh; apply strip_n_trans; auto).
    split; [auto|]. split; [intros S1 N; specialize (C S1); rewrite N in C; auto|]. split; [|exact T]. intros S1 N. specialize (C S1). rewrite N in C. exact C.
Qed.

(** C48, 1: whatever was called before, and whichever of those calls raised, the linear-response, EOM (except run_eomccp), spin-flip, electron-attached
    and -ionised, left and noniterative-correction routines (except CCSD(T)) only ever receive a similarity-transformed Hamiltonian *)
Definition needs_hbar (e : event) : bool := guarded (e_step e) || match e_step e with SCorr => negb (isin (e_method e) ["ccsd(t)"]) | _ => false end.
Lemma session_guards cs : forall d, (d_flag d = true -> transformed (d_ham d)) -> forall e, In e (snd (session d cs)) -> needs_hbar e = true -> transformed (e_ham e).
Proof.
  induction cs as [|c cs IH]; intros d I e; cbn [session]; [intros []|]. destruct (call d c) as [[d1 es] ok] eqn:E. specialize (IH d1 (call_inv _ _ _ _ _ E I)).
  destruct (session d1 cs) as [d2 es'] eqn:E2. cbn [snd] in *. intros He N. apply in_app_iff in He as [He|He]; [|auto].
  destruct (call_events _ _ _ _ _ E I e He) as (A & B & _ & _). unfold needs_hbar in N. apply orb_true_iff in N as [N|N]; [auto|]. destruct (e_step e) eqn:S1; try discriminate. apply B; [reflexivity|now apply negb_true_iff].
Qed.
Theorem C48_needs_hbar closed cs e : In e (snd (session (new_driver closed) cs)) -> needs_hbar e = true -> transformed (e_ham e).
Proof. apply session_guards. discriminate. Qed.

(** run_eomccp has no such check: on a driver that never built Hbar it runs on the bare integrals *)
Theorem C48_eomccp_refuted : exists cs e, In e (snd (session (new_driver true) cs)) /\ e_step e = SEomP /\ e_ham e = Bare.
Proof. exists [Guess "cisd" 1 true; EomP "eomccsdt_p" 1 true (fun _ => true)]. eexists. split; [vm_compute; right; left; reflexivity|split; reflexivity]. Qed.

(** C48, 2: CCSD(T) runs on the integrals the driver was created with, provided no run_hbar was interrupted before; an interrupted one (the CCSD
    build overwrites the integrals in place and flag_hbar is only set at the end) defeats the check *)
Lemma bare_inv cs : forall d, (d_flag d = false -> d_ham d = Bare) -> (forall c, In c cs -> ~ interrupted c) -> forall e, In e (snd (session d cs)) -> e_step e = SCorr -> isin (e_method e) ["ccsd(t)"] = true -> e_ham e = Bare.
Proof.
  induction cs as [|c cs IH]; intros d I NI e; cbn [session]; [intros []|]. destruct (call d c) as [[d1 es] ok] eqn:E.
  assert (I1 : d_flag d1 = false -> d_ham d1 = Bare).
  { intros F. destruct (is_hb c) eqn:B.
    - destruct c; try discriminate. cbn [call] in E. pose proof (hb_ok d m fin) as K. rewrite E in K. destruct K as (K1 & K2 & _). destruct ok; [destruct (K1 eq_refl); congruence|].
      destruct (K2 eq_refl) as [F1 [->|[_ ->]]]; [apply I; congruence|]. exfalso. apply (NI (Hb m false)); [now left|now exists m].
    - pose proof (call_good d c B) as K. rewrite E in K. destruct K as (((n & -> & N) & F' & _) & _). rewrite F' in F. destruct n; [auto|]. rewrite N in F by lia. discriminate. }
  specialize (IH d1 I1 (fun c H => NI c (or_intror H))). destruct (session d1 cs) as [d2 es'] eqn:E2. cbn [snd] in *. intros He S1 N. apply in_app_iff in He as [He|He]; [|auto].
  destruct (is_hb c) eqn:B.
  - destruct c; try discriminate. cbn [call] in E. pose proof (hb_ok d m fin) as K. rewrite E in K. destruct K as (_ & _ & _ & _ & K). destruct (K e He) as (S2 & _). congruence.
  - pose proof (call_good d c B) as K. rewrite E in K. destruct K as (_ & K). destruct (K e He) as (_ & _ & C & _). specialize (C S1). rewrite N in C. destruct C as [F ->]. auto.
Qed.
Theorem C48_ccsdpt_bare closed cs e : (forall c, In c cs -> ~ interrupted c) -> In e (snd (session (new_driver closed) cs)) ->
  e_step e = SCorr -> isin (e_method e) ["ccsd(t)"] = true -> e_ham e = Bare.
Proof. intros NI. apply bare_inv; [reflexivity|exact NI]. Qed.
Theorem C48_ccsdpt_interrupted_refuted : exists cs e, In e (snd (session (new_driver true) cs)) /\ e_step e = SCorr /\ e_method e = "ccsd(t)" /\ e_ham e <> Bare.
Proof. exists [CC "ccsd" true; Hb "ccsd" false; CCP3 "ccsd(t)" (Many [0]) true 0 (fun _ => true)]. eexists. split; [vm_compute; right; right; left; reflexivity|]. repeat split. discriminate. Qed.

(** C48, 3: a driver that never called run_hbar always works on the integrals it was created with *)
Lemma no_hb_bare cs : forall d, d_flag d = false -> d_ham d = Bare -> (forall c, In c cs -> is_hb c = false) -> d_ham (fst (session d cs)) = Bare /\ forall e, In e (snd (session d cs)) -> e_ham e = Bare.
Proof.
  induction cs as [|c cs IH]; intros d F H NH; cbn [session]; [split; [exact H|intros ? []]|]. destruct (call d c) as [[d1 es] ok] eqn:E.
  pose proof (call_good d c (NH c (or_introl eq_refl))) as K. rewrite E in K. destruct K as (((n & E1 & N1) & F1 & _) & K).
  assert (H1 : d_ham d1 = Bare) by (rewrite E1; destruct n; [exact H|rewrite N1 in F by lia; discriminate]).
  destruct (IH d1 (eq_trans F1 F) H1 (fun c H => NH c (or_intror H))) as [A B]. destruct (session d1 cs) as [d2 es'] eqn:E2. cbn [fst snd] in *. split; [exact A|].
  intros e He. apply in_app_iff in He as [He|He]; [|auto]. destruct (K e He) as ((k & Ek & Nk) & _). rewrite Ek. destruct k; [exact H|rewrite Nk in F by lia; discriminate].
Qed.
Theorem C48_bare_without_hbar closed cs : (forall c, In c cs -> is_hb c = false) ->
  d_ham (fst (session (new_driver closed) cs)) = Bare /\ forall e, In e (snd (session (new_driver closed) cs)) -> e_ham e = Bare.
Proof. apply no_hb_bare; reflexivity. Qed.

(** C48, 4: conversely, once a run_hbar has returned the bare integrals are gone: every routine of every later call receives the transformed
    Hamiltonian, including run_cc, run_guess and run_hbar, which are meant for the bare one *)
Lemma after_flag cs : forall d, d_flag d = true -> transformed (d_ham d) -> forall e, In e (snd (session d cs)) -> transformed (e_ham e).
Proof.
  induction cs as [|c cs IH]; intros d F T e; cbn [session]; [intros []|]. destruct (call d c) as [[d1 es] ok] eqn:E.
  specialize (IH d1 (call_flag_mono _ _ _ _ _ E F) (call_inv _ _ _ _ _ E (fun _ => T) (call_flag_mono _ _ _ _ _ E F))). destruct (session d1 cs) as [d2 es']. cbn [snd] in *.
  intros He. apply in_app_iff in He as [He|He]; [|auto]. destruct (call_events _ _ _ _ _ E (fun _ => T) e He) as (_ & _ & _ & K). auto.
Qed.
Theorem C48_no_way_back closed cs m cs' d1 es1 d2 es2 : session (new_driver closed) cs = (d1, es1) -> run_hbar d1 m true = (d2, es2, true) ->
  forall e, In e (snd (session d2 cs')) -> transformed (e_ham e).
Proof. intros _ E. pose proof (hb_ok d1 m true) as K. rewrite E in K. destruct K as (K & _). destruct (K eq_refl) as [F H]. apply after_flag; [exact F|rewrite H; exact I]. Qed.
(** so repeating run_cc or run_hbar on the same driver transforms an already transformed Hamiltonian *)
Theorem C48_repeat_refuted :
  (exists e, In e (snd (session (new_driver true) [CC "ccsd" true; Hb "ccsd" true; CC "ccsd" true])) /\ e_step e = SCC /\ e_ham e <> Bare) /\
  d_ham (fst (session (new_driver true) [CC "ccsd" true; Hb "ccsd" true; Hb "ccsd" true])) = HBar "ccsd" (HBar "ccsd" Bare).
Proof. split; [|reflexivity]. eexists. split; [vm_compute; right; right; left; reflexivity|]. split; [reflexivity|discriminate]. Qed.

(** ** Sticky options *)
(** C48, 5: RHF symmetry, once switched off by a guess of other than singlet multiplicity, stays off for every later call *)
Lemma call_rhf d c d' es ok : call d c = (d', es, ok) -> d_rhf d = false -> d_rhf d' = false /\ forall e, In e es -> e_rhf e = false.
Proof.
  intros E F. destruct (is_hb c) eqn:B.
  - destruct c; try discriminate. cbn [call] in E. pose proof (hb_ok d m fin) as K. rewrite E in K. destruct K as (_ & _ & -> & _ & K). split; [exact F|]. intros e He. destruct (K e He) as (_ & _ & ->). exact F.
  - pose proof (call_good d c B) as K. rewrite E in K. destruct K as ((_ & _ & R & _) & K). split; [destruct (d_rhf d'); [rewrite <- F; symmetry; auto|reflexivity]|].
    intros e He. destruct (K e He) as (_ & _ & _ & R'). destruct (e_rhf e); [rewrite <- F; symmetry; auto|reflexivity].
Qed.
Theorem C48_rhf_sticky d m mult fin cs : isin m guess_modules = true -> mult <> 1 ->
  forall e, In e (snd (session (fst (fst (run_guess d m mult fin))) cs)) -> e_rhf e = false.
Proof.
  intros I N. assert (F : d_rhf (fst (fst (run_guess d m mult fin))) = false). { unfold run_guess. rewrite I. cbn. now apply Nat.eqb_neq in N as ->. }
  revert F. generalize (fst (fst (run_guess d m mult fin))). induction cs as [|c cs IH]; intros d0 F e; cbn [session]; [intros []|].
  destruct (call d0 c) as [[d1 es] ok] eqn:E. destruct (call_rhf _ _ _ _ _ E F) as [F1 K]. specialize (IH d1 F1). destruct (session d1 cs). cbn [snd] in *.
  intros He. apply in_app_iff in He as [He|He]; auto.
Qed.
(** C48, 6: after run_eomcc("eomcc3") no later run_eomcc of another method ever reaches its solver: the solver choice it made is never undone *)
Lemma call_solver d c d' es ok : call d c = (d', es, ok) -> d_solver d = "diis" -> d_solver d' = "diis".
Proof.
  intros E F. destruct (is_hb c) eqn:B.
  - destruct c; try discriminate. cbn [call] in E. pose proof (hb_ok d m fin) as K. rewrite E in K. destruct K as (_ & _ & _ & -> & _). exact F.
  - pose proof (call_good d c B) as K. rewrite E in K. destruct K as ((_ & _ & _ & [-> | ->] & _) & _); [exact F|reflexivity].
Qed.
Lemma session_solver cs : forall d, d_solver d = "diis" -> d_solver (fst (session d cs)) = "diis".
Proof. induction cs as [|c cs IH]; intros d F; cbn [session]; [exact F|]. destruct (call d c) as [[d1 es] ok] eqn:E. specialize (IH d1 (call_solver _ _ _ _ _ E F)). destruct (session d1 cs). exact IH. Qed.
Theorem C48_cc3_sticky d l fin cs m l' fin' : isin m ["eomcc3"] = false ->
  let d' := fst (session (fst (fst (run_eomcc d "eomcc3" l fin))) cs) in snd (fst (run_eomcc d' m l' fin')) = [] /\ snd (run_eomcc d' m l' fin') = false.
Proof.
  intros N d'. assert (F : d_solver d' = "diis").
  { apply session_solver. unfold run_eomcc. cbn [isin existsb]. change (isin "eomcc3" eom_modules) with true. change (isin "eomcc3" ["eomcc3"]) with true. cbn [negb].
    destruct (negb _); [reflexivity|]. match goal with |- context [fill_R ?a ?b ?c] => pose proof (fill_R_core b c a) as C; destruct (fill_R a b c) as [d2 ok] end. cbn [fst] in C. destruct C as (_ & _ & _ & C & _). cbn in C.
    destruct (negb ok); [exact C|]. rewrite andb_false_r. destruct (each _ fin l). exact C. }
  clearbody d'. unfold run_eomcc. destruct (isin m eom_modules); cbn [negb]; [|split; reflexivity]. rewrite N. pose proof (sop_core d' m) as (_ & _ & _ & C & _). destruct (negb _); [split; reflexivity|].
  match goal with |- context [fill_R ?a ?b ?c] => pose proof (fill_R_core b c a) as C2; destruct (fill_R a b c) as [d2 ok] end. cbn [fst] in C2. destruct C2 as (_ & _ & _ & C2 & _).
  destruct (negb ok); [split; reflexivity|]. rewrite C2, C, F. cbn. split; reflexivity.
Qed.

(** ** Noniterative corrections *)
(** C48, 7: "cct3" in the two-body approximation removes the V*T3 terms in place, once per state: the k-th state of one call sees them subtracted k
    times, on top of those removed by earlier calls *)
Fixpoint stripped (h : ham) : nat := match h with NoVT3 h => S (stripped h) | _ => 0 end.
Theorem C48_cct3_strips d l na fin : d_flag d = true -> (exists o, d_L d 0 = Some o /\ 2 < o_ord o) -> (forall i, In i l -> d_L d i <> None /\ (i <> 0 -> d_R d i <> None) /\ fin i = true) ->
  let '(d', es, ok) := run_ccp3 d "cct3" (Many l) true na fin in ok = true /\ map e_ham es = map (fun k => strip_n (S k) (d_ham d)) (seq 0 (List.length l)) /\ d_ham d' = strip_n (List.length l) (d_ham d).
Proof.
  intros F L0 HL. unfold run_ccp3. change (isin "cct3" ["crcc23"; "crcc23_chol"]) with false. change (isin "cct3" ["ccsd(t)"]) with false. change (isin "cct3" ["cct3"]) with true. cbn iota. rewrite F. cbn [negb].
  assert (CA : d_ham (if (1 <=? na) && (na <=? 3) then with_act d (Some na) else d) = d_ham d /\ d_L (if (1 <=? na) && (na <=? 3) then with_act d (Some na) else d) = d_L d /\ d_R (if (1 <=? na) && (na <=? 3) then with_act d (Some na) else d) = d_R d) by (destruct (_ && _); repeat split).
  set (d1 := if _ && _ then with_act d (Some na) else d) in *. clearbody d1. destruct CA as (CH & CL & CR). rewrite <- CH. rewrite <- CL in L0. rewrite <- CL, <- CR in HL. clear d F CH CL CR.
  revert d1 L0 HL. induction l as [|i l IH]; intros d (o & L0 & Ho) HL; cbn [cct3_loop]; [repeat split|].
  unfold strip. rewrite L0. apply Nat.ltb_lt in Ho as Hb. rewrite Hb. rewrite andb_false_r. unfold corr1. destruct (HL i (or_introl eq_refl)) as (Li & Ri & Fi).
  cbn [with_ham d_L d_R d_ham d_flag d_fock with_d3]. destruct (d_L d i) as [li|] eqn:ELi; [|contradiction].
  replace (negb (i =? 0) && match d_R d i with Some _ => false | None => true end) with false by (destruct (Nat.eqb_spec i 0) as [|NZ]; [reflexivity|]; specialize (Ri NZ); destruct (d_R d i); [reflexivity|congruence]). rewrite Fi.
  match goal with |- context [cct3_loop ?D true l fin] => specialize (IH D) end. cbn [with_ham with_d3 d_L d_R d_ham] in IH.
  specialize (IH (ex_intro _ o (conj L0 Ho)) (fun j Hj => HL j (or_intror Hj))).
  match goal with |- context [cct3_loop ?D true l fin] => destruct (cct3_loop D true l fin) as [[d2 es] b] end. destruct IH as (-> & IH & E2). split; [reflexivity|]. split.
  - cbn [app map List.length seq ev e_ham with_ham d_ham]. f_equal. rewrite IH. rewrite <- seq_shift, map_map. apply map_ext. intros k. change (NoVT3 (d_ham d)) with (strip_n 1 (d_ham d)). rewrite strip_n_add. f_equal. lia.
  - rewrite E2. change (NoVT3 (d_ham d)) with (strip_n 1 (d_ham d)). rewrite strip_n_add. cbn [List.length]. f_equal. lia.
Qed.
(** C48, 8: "ccp3" called with a list of states (the default is [0]) always raises, after having removed the V*T3 terms; the n-fold repetition of a
    one-state call removes them n times *)
Theorem C48_ccp3_list_raises d l tb na fin o : d_flag d = true -> d_L d 0 = Some o -> 2 < o_ord o ->
  run_ccp3 d "ccp3" (Many l) tb na fin = (if tb then with_ham d (NoVT3 (d_ham d)) true (d_fock d) else d, [], false).
Proof.
  intros F L0 Ho. unfold run_ccp3. change (isin "ccp3" ["crcc23"; "crcc23_chol"]) with false. change (isin "ccp3" ["ccsd(t)"]) with false. change (isin "ccp3" ["cct3"]) with false. change (isin "ccp3" ["ccp3"]) with true. cbn iota.
  rewrite F. cbn [negb]. unfold strip. apply Nat.ltb_lt in Ho. destruct tb; [rewrite L0, Ho, F; reflexivity|reflexivity].
Qed.
Theorem C48_ccp3_repeats n : forall d i na fin o, d_flag d = true -> d_L d 0 = Some o -> 2 < o_ord o -> d_L d i <> None -> (i <> 0 -> d_R d i <> None) -> fin i = true ->
  d_ham (fst (session d (repeat (CCP3 "ccp3" (One i) true na fin) n))) = strip_n n (d_ham d).
Proof.
  induction n as [|n IH]; intros d i na fin o F L0 Ho Li Ri Fi; [reflexivity|]. cbn [repeat session call]. unfold run_ccp3 at 1. change (isin "ccp3" ["crcc23"; "crcc23_chol"]) with false. change (isin "ccp3" ["ccsd(t)"]) with false. change (isin "ccp3" ["cct3"]) with false. change (isin "ccp3" ["ccp3"]) with true. cbn iota.
  rewrite F. cbn [negb]. unfold strip. apply Nat.ltb_lt in Ho as Hb. rewrite L0, Hb. unfold corr1. cbn [with_ham d_L d_R d_ham d_flag d_fock with_d3]. destruct (d_L d i) eqn:ELi; [|contradiction].
  replace (negb (i =? 0) && match d_R d i with Some _ => false | None => true end) with false by (destruct (Nat.eqb_spec i 0) as [|NZ]; [reflexivity|]; specialize (Ri NZ); destruct (d_R d i); [reflexivity|congruence]). rewrite Fi.
  match goal with |- context [session ?D (repeat _ n)] => specialize (IH D i na fin o) end. cbn [with_ham with_d3 d_L d_R d_ham d_flag] in IH. rewrite ELi in IH. specialize (IH F L0 Ho ltac:(discriminate) Ri Fi).
  match goal with |- context [session ?D (repeat _ n)] => destruct (session D (repeat (CCP3 "ccp3" (One i) true na fin) n)) end. cbn [fst] in *. rewrite IH. change (NoVT3 (d_ham d)) with (strip_n 1 (d_ham d)). rewrite strip_n_add. f_equal. lia.
Qed.
(** C48, 9: a correction name the driver does not know returns normally, having computed nothing; "cct3" without the two-body approximation also
    returns normally for the ground state, having computed nothing *)
Theorem C48_unknown_correction_silent d m s tb na fin : isin m ["crcc23"; "crcc23_chol"; "ccsd(t)"; "cct3"; "ccp3"; "eomccsdta_star"] = false ->
  run_ccp3 d m s tb na fin = (d, [], true).
Proof.
  unfold isin. cbn [existsb]. intros H. repeat (apply orb_false_iff in H as [? H]). unfold run_ccp3, isin. cbn [existsb].
  repeat match goal with K : String.eqb _ _ = false |- _ => rewrite K; clear K end. reflexivity.
Qed.
Theorem C48_cct3_ground_refuted d na fin : d_flag d = true -> let '(d', es, ok) := run_ccp3 d "cct3" (Many [0]) false na fin in ok = true /\ es = [] /\ d_d3 d' = d_d3 d.
Proof.
  intros F. unfold run_ccp3. change (isin "cct3" ["crcc23"; "crcc23_chol"]) with false. change (isin "cct3" ["ccsd(t)"]) with false. change (isin "cct3" ["cct3"]) with true. cbn iota. rewrite F. cbn [negb].
  destruct (_ && _); repeat split.
Qed.

(** C48, 10: a successful correction records, for each requested state and no other, the value computed with the Hamiltonian in force (for "ccp3" with
    the two-body approximation, the one with the three-body intermediates removed) *)
Lemma corr_loop_d3 m l : forall d fin d' es, corr_loop m d l fin = (d', es, true) ->
  forall j, d_d3 d' j = if existsb (Nat.eqb j) l then Some (d_ham d) else d_d3 d j.
Proof.
  induction l as [|i l IH]; intros d fin d' es E j; cbn [corr_loop] in E; [injection E as <- <-; reflexivity|].
  unfold corr1 in E at 1. destruct (d_L d i); [|discriminate]. destruct (negb (i =? 0) && _); [discriminate|]. destruct (fin i); [|discriminate].
  destruct (corr_loop m (with_d3 d i (d_ham d)) l fin) as [[d1 es1] b1] eqn:E1. injection E as <- <- ->. rewrite (IH _ _ _ _ E1 j). cbn [existsb with_d3 d_ham d_d3]. unfold upd.
  rewrite (Nat.eqb_sym j i). destruct (existsb (Nat.eqb j) l); [now rewrite orb_true_r|]. rewrite orb_false_r, (Nat.eqb_sym i j). reflexivity.
Qed.
Theorem C48_correction_recorded d l tb na fin d' es : run_ccp3 d "crcc23" (Many l) tb na fin = (d', es, true) ->
  d_ham d' = d_ham d /\ forall j, d_d3 d' j = if existsb (Nat.eqb j) l then Some (d_ham d) else d_d3 d j.
Proof.
  unfold run_ccp3. change (isin "crcc23" ["crcc23"; "crcc23_chol"]) with true. cbn iota. destruct (negb (d_flag d)); [discriminate|]. intros E. split; [|exact (corr_loop_d3 _ _ _ _ _ _ E)].
  revert d d' es E. induction l as [|i l IH]; intros d d' es E; cbn [corr_loop] in E; [injection E as <- <-; reflexivity|].
  unfold corr1 in E at 1. destruct (d_L d i); [|discriminate]. destruct (negb (i =? 0) && _); [discriminate|]. destruct (fin i); [|discriminate].
  destruct (corr_loop "crcc23" (with_d3 d i (d_ham d)) l fin) as [[d1 es1] b1] eqn:E1. injection E as <- <- ->. rewrite (IH _ _ _ E1). reflexivity.
Qed.
Theorem C48_ccp3_recorded d i tb na fin o d' es : d_L d 0 = Some o -> 2 < o_ord o -> run_ccp3 d "ccp3" (One i) tb na fin = (d', es, true) ->
  d_ham d' = (if tb then NoVT3 (d_ham d) else d_ham d) /\ forall j, d_d3 d' j = if j =? i then Some (d_ham d') else d_d3 d j.
Proof.
  intros L0 Ho. unfold run_ccp3. change (isin "ccp3" ["crcc23"; "crcc23_chol"]) with false. change (isin "ccp3" ["ccsd(t)"]) with false. change (isin "ccp3" ["cct3"]) with false. change (isin "ccp3" ["ccp3"]) with true. cbn iota.
  destruct (negb (d_flag d)); [discriminate|]. unfold strip. apply Nat.ltb_lt in Ho. rewrite L0, Ho. unfold corr1.
  destruct tb; cbn [with_ham d_L d_R d_ham]; (destruct (d_L d i); [|discriminate]); (destruct (negb (i =? 0) && _); [discriminate|]); (destruct (fin i); [|discriminate]); intros E; injection E as <- <-;
    (split; [reflexivity|]); intros j; cbn [with_d3 with_ham d_d3 d_ham]; unfold upd; reflexivity.
Qed.

(** ** Operator shapes *)
Lemma fill_R_spec o states : forall d d', fill_R d o states = (d', true) -> forall i, d_R d' i = match d_R d i with Some r => Some r | None => if existsb (Nat.eqb i) states then Some o else None end.
Proof.
  induction states as [|j l IH]; intros d d' E i; cbn [fill_R] in E.
  - injection E as <-. cbn. now destruct (d_R d i).
  - cbn [existsb]. destruct (d_R d j) eqn:Ej.
    + rewrite (IH _ _ E i). destruct (d_R d i) eqn:Ei; [reflexivity|]. destruct (Nat.eqb_spec i j) as [->|]; [congruence|reflexivity].
    + destruct (d_guess d); [|discriminate]. rewrite (IH _ _ E i). unfold with_R, upd; cbn [d_R]. destruct (Nat.eqb_spec i j) as [->|]; [rewrite Ej; reflexivity|]. now destruct (d_R d i).
Qed.
Lemma solve_R_shape s m d o states fin d' es ok : solve_R s m d o states fin = (d', es, ok) -> (forall i, In i states -> d_R d i = None) -> forall e, In e es -> e_oper e = Some o.
Proof.
  unfold solve_R. destruct (fill_R d o states) as [d1 b] eqn:E. destruct b; [|intros Q _ e; injection Q as _ <- _; intros []].
  pose proof (each_in (fun i => ev s m d1 (d_R d1 i)) fin states) as K. destruct (each _ fin states) as [es1 b1]. cbn [fst] in K. intros Q N e. injection Q as _ <- _. intros He. destruct (K e He) as (i & Hi & ->). cbn.
  rewrite (fill_R_spec _ _ _ _ E i), (N i Hi). replace (existsb (Nat.eqb i) states) with true; [reflexivity|]. symmetry. apply existsb_exists. exists i. now rewrite Nat.eqb_refl.
Qed.
(** The particle and hole numbers of each electron-attached or -ionised method, from its name: nph-mhole with rank the largest of the two *)
Definition fock_table : list (string * (nat * nat)) :=
  [("ipeom2", (1, 2)); ("ipeom3", (2, 3)); ("ipeomccsdta", (2, 3)); ("ipeomccsdt", (2, 3)); ("eaeom2", (2, 1)); ("eaeom3", (3, 2)); ("eaeomccsdt", (3, 2));
   ("dipeom3", (1, 3)); ("dipeom4", (2, 4)); ("dipeomccsdt", (2, 4)); ("dipeomccsdta", (2, 4)); ("deaeom2", (2, 0)); ("deaeom3", (3, 1)); ("deaeom4", (4, 2))].
Definition fockp_table : list (string * (nat * nat)) := [("ipeom3_p", (2, 3)); ("ipeomccsdt_p", (2, 3)); ("eaeom3_p", (3, 2)); ("deaeom4_p", (4, 2))].
(** C48, 10: in every state of the driver, hence after every history, a vector created by run_ipeomcc, run_eaeomcc, run_dipeomcc, run_deaeomcc and
    their P-space forms has the particle and hole numbers of the method asked for *)
Theorem C48_fock_shapes d m np nh l fin d' es ok : In (m, (np, nh)) fock_table -> run_fock d m l fin = (d', es, ok) -> (forall i, In i l -> d_R d i = None) ->
  forall e, In e es -> e_oper e = Some (mkOper np nh (Nat.max np nh) false None).
Proof.
  intros T E N. pose proof (sop_vecs d m) as (_ & _ & VR & _).
  assert (K : isin m eom_modules = true /\ s_np (set_operator_params d m) = Some np /\ s_nh (set_operator_params d m) = Some nh).
  { cbn [fock_table In] in T. repeat (destruct T as [T|T]; [injection T as <- <- <-; repeat split; reflexivity|]). destruct T. }
  destruct K as (K1 & K2 & K3). unfold run_fock in E. rewrite K1, K2, K3 in E. cbn [negb] in E. destruct (negb _); [injection E as _ <- _; intros ? []|]. eapply solve_R_shape; [exact E|]. intros i Hi. rewrite VR. auto.
Qed.
Theorem C48_fockp_shapes d m np nh l fin d' es ok : In (m, (np, nh)) fockp_table -> run_fock_p d m l fin = (d', es, ok) -> (forall i, In i l -> d_R d i = None) ->
  forall e, In e es -> e_oper e = Some (mkOper np nh (Nat.max np nh) false (Some 2)).
Proof.
  intros T E N. pose proof (sop_vecs d m) as (_ & _ & VR & _).
  assert (K : isin m eom_modules = true /\ fockop_p (set_operator_params d m) = mkOper np nh (Nat.max np nh) false (Some 2)).
  { cbn [fockp_table In] in T. repeat (destruct T as [T|T]; [injection T as <- <- <-; repeat split; reflexivity|]). destruct T. }
  destruct K as (K1 & K2). unfold run_fock_p in E. rewrite K1, K2 in E. cbn [negb] in E. destruct (negb _); [injection E as _ <- _; intros ? []|]. eapply solve_R_shape; [exact E|]. intros i Hi. rewrite VR. auto.
Qed.
(** The excitation rank of each particle-conserving method *)
Definition eom_table : list (string * nat) := [("eomcc2", 2); ("eomccsd", 2); ("eomccsd_chol", 2); ("eomcc3", 2); ("eomccsdt", 3)].
Theorem C48_eom_shapes d m o l fin d' es ok : In (m, o) eom_table -> run_eomcc d m l fin = (d', es, ok) -> (forall i, In i l -> d_R d i = None) ->
  forall e, In e es -> e_oper e = Some (mkOper o o o false None).
Proof.
  intros T E N. pose proof (sop_vecs d m) as (_ & _ & VR & _).
  assert (K : isin m eom_modules = true /\ p_ord (set_operator_params d m) = o).
  { cbn [eom_table In] in T. repeat (destruct T as [T|T]; [injection T as <- <-; repeat split; reflexivity|]). destruct T. }
  destruct K as (K1 & K2). unfold run_eomcc in E. rewrite K1 in E. cbn [negb] in E.
  set (d1 := if isin m ["eomcc3"] then with_solver (set_operator_params d m) "diis" else set_operator_params d m) in E.
  assert (D1 : d_R d1 = d_R d /\ p_ord d1 = o) by (unfold d1; destruct (isin m ["eomcc3"]); cbn [with_solver d_R p_ord]; auto). clearbody d1. destruct D1 as [DR DO].
  destruct (negb (d_flag d1)); [injection E as _ <- _; intros ? []|]. destruct (fill_R d1 (cluster d1) l) as [d2 b] eqn:F. destruct b; cbn [negb] in E; [|injection E as _ <- _; intros ? []].
  destruct (_ && _); [injection E as _ <- _; intros ? []|]. pose proof (each_in (fun i => ev SEom m d2 (d_R d2 i)) fin l) as K. destruct (each _ fin l) as [es1 b1]. cbn [fst] in K. injection E as _ <- _.
  intros e He. destruct (K e He) as (i & Hi & ->). cbn. rewrite (fill_R_spec _ _ _ _ F i), DR, (N i Hi). unfold cluster. rewrite DO. replace (existsb (Nat.eqb i) l) with true; [reflexivity|]. symmetry. apply existsb_exists. exists i. now rewrite Nat.eqb_refl.
Qed.
(** Spin-flip vectors get the rank left over from the last particle-conserving call, not the method's: rank 3 for SF-EOMCCSD after CCSDT, rank 2 for
    SF-EOMCC(2,3) after CCSD *)
Theorem C48_sf_shape_refuted :
  (exists e, In e (snd (session (new_driver true) [CC "ccsdt" true; Hb "ccsdt" true; Guess "sfcis" 1 true; Sf "sfeomccsd" [1] (fun _ => true)])) /\ e_method e = "sfeomccsd" /\ e_oper e = Some (mkOper 3 3 3 true None)) /\
  (exists e, In e (snd (session (new_driver true) [CC "ccsd" true; Hb "ccsd" true; Guess "sfcis" 1 true; Sf "sfeomcc23" [1] (fun _ => true)])) /\ e_method e = "sfeomcc23" /\ e_oper e = Some (mkOper 2 2 2 true None)).
Proof. split; (eexists; split; [vm_compute; do 3 right; left; reflexivity|split; reflexivity]). Qed.
(** C48, 11: an amplitude vector that exists (T, L[i] or R[i]) keeps its shape through every later call, of whatever method: a second method of another
    rank runs on the vectors of the first *)
Definition kept (d d' : drv) : Prop :=
  (forall t, d_T d = Some t -> d_T d' = Some t) /\ (forall i r, d_L d i = Some r -> d_L d' i = Some r) /\ (forall i r, d_R d i = Some r -> d_R d' i = Some r).
Lemma kept_refl d : kept d d. Proof. repeat split; auto. Qed.
Lemma kept_trans a b c : kept a b -> kept b c -> kept a c. Proof. intros (A & B & C) (A' & B' & C'). repeat split; auto. Qed.
Lemma sop_kept d m : kept d (set_operator_params d m).
Proof. pose proof (sop_vecs d m) as (A & B & C & _). unfold kept. rewrite A, B, C. auto. Qed.
Lemma fill_R_kept o l : forall d, kept d (fst (fill_R d o l)).
Proof.
  induction l as [|j l IH]; intros d; cbn [fill_R]; [apply kept_refl|]. destruct (d_R d j) eqn:E; [apply IH|].
  assert (K : kept d (with_R d j o)) by (repeat split; auto; intros i r H; cbn; unfold upd; destruct (Nat.eqb_spec i j); [congruence|exact H]).
  destruct (d_guess d); [eapply kept_trans; [exact K|apply IH]|exact K].
Qed.
Lemma fill_L_kept g o l : forall d, kept d (fst (fill_L g d o l)).
Proof.
  induction l as [|j l IH]; intros d; cbn [fill_L]; [apply kept_refl|]. destruct (d_L d j) eqn:E; [apply IH|].
  assert (K : kept d (with_L d j o)) by (repeat split; auto; intros i r H; cbn; unfold upd; destruct (Nat.eqb_spec i j); [congruence|exact H]).
  destruct (if g && (j =? 0) then d_T d else d_R d j); [eapply kept_trans; [exact K|apply IH]|exact K].
Qed.
Lemma solve_R_kept s m d o l fin : kept d (fst (fst (solve_R s m d o l fin))).
Proof. unfold solve_R. pose proof (fill_R_kept o l d) as K. destruct (fill_R d o l) as [d1 b]. destruct b; [|exact K]. now destruct (each _ fin l). Qed.
Lemma solve_L_kept s m d o l fin : kept d (fst (fst (solve_L s m d o l fin))).
Proof. unfold solve_L. pose proof (fill_L_kept false o l d) as K. destruct (fill_L false d o l) as [d1 b]. destruct b; [|exact K]. now destruct (each _ fin l). Qed.
Lemma left_loop_kept s m o fin l : forall d, kept d (fst (fst (left_loop s m d o l fin))).
Proof.
  induction l as [|i l IH]; intros d; cbn [left_loop]; [apply kept_refl|]. pose proof (fill_L_kept true o [i] d) as K. destruct (fill_L true d o [i]) as [d1 b]. cbn [fst] in K. destruct b; cbn [negb]; [|exact K].
  destruct (fin i); [|exact K]. specialize (IH d1). destruct (left_loop s m d1 o l fin) as [[d2 es] b]. eapply kept_trans; [exact K|exact IH].
Qed.
Lemma corr1_kept m d i fin : kept d (fst (fst (corr1 m d i fin))).
Proof. unfold corr1. destruct (d_L d i); [|apply kept_refl]. destruct (_ && _); [apply kept_refl|]. destruct fin; repeat split; auto. Qed.
Lemma corr_loop_kept m fin l : forall d, kept d (fst (fst (corr_loop m d l fin))).
Proof.
  induction l as [|i l IH]; intros d; cbn [corr_loop]; [apply kept_refl|]. pose proof (corr1_kept m d i (fin i)) as K. destruct (corr1 m d i (fin i)) as [[d1 es] b]. destruct b; [|exact K].
  specialize (IH d1). destruct (corr_loop m d1 l fin) as [[d2 es'] b']. eapply kept_trans; [exact K|exact IH].
Qed.
Lemma strip_kept d tb d' : strip d tb = Some d' -> kept d d'.
Proof. intros H. apply strip_ok in H as [->| ->]; repeat split; auto. Qed.
Lemma cct3_loop_kept tb fin l : forall d, kept d (fst (fst (cct3_loop d tb l fin))).
Proof.
  induction l as [|i l IH]; intros d; cbn [cct3_loop]; [apply kept_refl|]. destruct (strip d tb) as [d1|] eqn:E; [|apply kept_refl]. apply strip_kept in E.
  assert (K : kept d1 (fst (fst (if (i =? 0) && negb tb then (d1, [], true) else corr1 "cct3" d1 i (fin i))))) by (destruct (_ && _); [apply kept_refl|apply corr1_kept]).
  destruct (if (i =? 0) && negb tb then (d1, [], true) else corr1 "cct3" d1 i (fin i)) as [[d2 es] b]. assert (K' : kept d d2) by (eapply kept_trans; [exact E|exact K]). destruct b; [|exact K'].
  specialize (IH d2). destruct (cct3_loop d2 tb l fin) as [[d3 es'] b']. eapply kept_trans; [exact K'|exact IH].
Qed.
Theorem C48_vectors_kept d c d' es ok : call d c = (d', es, ok) -> kept d d'.
Proof.
  intros E. replace d' with (fst (fst (call d c))) by now rewrite E. clear E. destruct c; cbn [call]; unfold run_cc, run_ccp, run_lrcc, run_hbar, run_guess, run_eomcc, run_eomccp, run_eomcc_multiroot, run_sfeomcc, run_fock, run_fock_p, run_leftcc, run_leftccp, run_lefteomcc, run_lefteomccp, run_leftfock, run_leftfock_p, run_ccp3.
  all: try match goal with |- context [isin ?mm ["crcc23"; "crcc23_chol"]] => destruct (isin mm ["crcc23"; "crcc23_chol"]); [|destruct (isin mm ["ccsd(t)"])] end.
  all: repeat match goal with
  | |- context [isin ?mm eom_modules] => destruct (isin mm eom_modules); cbn [negb]; [|apply kept_refl]
  | |- context [isin ?mm cc_modules] => destruct (isin mm cc_modules); cbn [negb]; [|apply kept_refl]
  | |- context [isin ?mm left_modules] => destruct (isin mm left_modules); cbn [negb]; [|apply kept_refl]
  | |- context [isin ?mm lr_modules] => destruct (isin mm lr_modules); cbn [negb]; [|apply kept_refl]
  | |- context [isin ?mm guess_modules] => destruct (isin mm guess_modules); cbn [negb]; [|apply kept_refl]
  end.
  all: try match goal with |- context [negb (d_flag (set_operator_params ?dd ?mm))] => match goal with |- context [with_solver] => fail 1 | _ => destruct (negb (d_flag (set_operator_params dd mm))); [apply sop_kept|] end end.
  all: try (destruct (_ && _); [apply sop_kept|]).
  all: try (destruct (s_np _); [|apply sop_kept]; destruct (s_nh _); [|apply sop_kept]).
  all: try (eapply kept_trans; [apply sop_kept|apply solve_R_kept]).
  all: try (eapply kept_trans; [apply sop_kept|apply solve_L_kept]).
  all: try (eapply kept_trans; [apply sop_kept|apply left_loop_kept]).
  - eapply kept_trans; [apply (sop_kept d m)|]. destruct (d_T (set_operator_params d m)) eqn:ET; [apply kept_refl|]. split; [congruence|]. split; auto.
  - eapply kept_trans; [apply (sop_kept d m)|]. destruct (d_T (set_operator_params d m)) eqn:ET; [apply kept_refl|]. split; [congruence|]. split; auto.
  - destruct (negb (d_flag d)); [apply kept_refl|apply sop_kept].
  - destruct (negb _); [apply kept_refl|]. destruct (isin m ["ccs"]); [apply kept_refl|]. destruct (d_T d) eqn:ET; [|apply kept_refl]. destruct fin; repeat split; auto.
  - repeat split; auto.
  - eapply kept_trans; [apply (sop_kept d m)|]. set (d1 := set_operator_params d m). clearbody d1.
    assert (K : kept d1 (if isin m ["eomcc3"] then with_solver d1 "diis" else d1)) by (destruct (isin m ["eomcc3"]); repeat split; auto).
    destruct (negb _); [exact K|]. match goal with |- context [fill_R ?a ?b l] => pose proof (fill_R_kept b l a) as K2; destruct (fill_R a b l) as [d2 b2] end. cbn [fst] in K2. assert (K3 : kept d1 d2) by (eapply kept_trans; [exact K|exact K2]).
    destruct (negb b2); [exact K3|]. destruct (_ && _); [exact K3|]. now destruct (each _ fin l).
  - destruct (negb _); [apply kept_refl|]. destruct s; [apply kept_refl|]. apply corr_loop_kept.
  - destruct (d_flag d); [apply kept_refl|]. destruct (d_T d) eqn:ET; [|apply kept_refl]. destruct (fin 0); repeat split; auto.
  - assert (CA : kept d (if (1 <=? num_active) && (num_active <=? 3) then with_act d (Some num_active) else d)) by (destruct (_ && _); repeat split; auto).
    destruct (isin m ["cct3"]); [destruct (negb _); [apply kept_refl|]; destruct s; [exact CA|]; eapply kept_trans; [exact CA|apply cct3_loop_kept]|].
    destruct (isin m ["ccp3"]); [destruct (negb _); [apply kept_refl|]; destruct (strip d two_body) eqn:ES; [|apply kept_refl]; apply strip_kept in ES; destruct s; [|exact ES]; eapply kept_trans; [exact ES|apply corr1_kept]|].
    destruct (isin m ["eomccsdta_star"]); [destruct (negb _); [apply kept_refl|]; destruct s; [apply kept_refl|]; apply corr_loop_kept|apply kept_refl].
Qed.
(** so a CCSD run followed by a CCSDT run on the same driver iterates the CCSDT routine on rank-2 amplitudes *)
Theorem C48_second_method_refuted : exists e, In e (snd (session (new_driver true) [CC "ccsd" true; CC "ccsdt" true])) /\ e_method e = "ccsdt" /\ e_oper e = Some (mkOper 2 2 2 false None).
Proof. eexists. split; [vm_compute; right; left; reflexivity|split; reflexivity]. Qed.

(** A complete excited-state calculation, with two calls that raise in between *)
Definition c48_session : list cmd :=
  [Left "left_ccsd" [0] (fun _ => true); CC "ccsd" true; CCP3 "ccsd(t)" (Many [0]) true 0 (fun _ => true); Hb "ccsd" true; CCP3 "ccsd(t)" (Many [0]) true 0 (fun _ => true);
   Guess "cisd" 1 true; Eom "eomccsd" [1; 2] (fun i => i =? 1); Left "left_ccsd" [0] (fun _ => true); LeftEom "left_ccsd" [1] (fun _ => true); CCP3 "crcc23" (Many [0; 1]) true 0 (fun _ => true)].
Example C48_instance :
  map (fun e => (e_step e, e_method e, e_ham e)) (snd (session (new_driver true) c48_session)) =
  [(SCC, "ccsd", Bare); (SCorr, "ccsd(t)", Bare); (SHbar, "ccsd", Bare); (SGuess, "cisd", HBar "ccsd" Bare); (SEom, "eomccsd", HBar "ccsd" Bare); (SEom, "eomccsd", HBar "ccsd" Bare);
   (SLeft, "left_ccsd", HBar "ccsd" Bare); (SLeftEom, "left_ccsd", HBar "ccsd" Bare); (SCorr, "crcc23", HBar "ccsd" Bare); (SCorr, "crcc23", HBar "ccsd" Bare)]
  /\ (forall c, In c c48_session -> ~ interrupted c)
  /\ isin "cisd" guess_modules = true /\ isin "eomccsd" ["eomcc3"] = false /\ isin "ccsd(t)" ["ccsd(t)"] = true.
Proof.
  split; [reflexivity|]. split; [|repeat split]. intros c H (m & ->). cbn in H. repeat (destruct H as [H|H]; [discriminate|]). exact H.
Qed.
(** CC(P;Q) for two states: the hypotheses of the statements on "cct3" and "ccp3" are met by the state this session reaches *)
Example C48_instance_strip : let d := fst (session (new_driver true) [CCP "ccsdt_p" true true; Hb "ccsdt_p" true; Guess "cisd" 1 true; EomP "eomccsdt_p" 1 true (fun _ => true); LeftP "left_ccsdt_p" [0; 1] (fun _ => true)]) in
  d_flag d = true /\ (exists o, d_L d 0 = Some o /\ 2 < o_ord o) /\ d_L d 1 <> None /\ d_R d 1 <> None /\ d_ham d = HBar "ccsdt_p" Bare
  /\ map e_ham (snd (session d [CCP3 "ccp3" (One 0) true 0 (fun _ => true); CCP3 "ccp3" (One 1) true 0 (fun _ => true)])) = [NoVT3 (HBar "ccsdt_p" Bare); NoVT3 (NoVT3 (HBar "ccsdt_p" Bare))].
Proof. vm_compute. repeat split; try discriminate. eexists. split; [reflexivity|]. repeat constructor. Qed.

Print Assumptions C48_needs_hbar.
Print Assumptions C48_ccsdpt_bare.
Print Assumptions C48_bare_without_hbar.
Print Assumptions C48_no_way_back.
Print Assumptions C48_cct3_strips.
Print Assumptions C48_vectors_kept.
