(** C46, C47: the adaptive CC(P;Q) driver. *)
From Coq Require Import List Arith Bool String QArith Qround ZArith Reals Lia Lra Lqa.
From Verif Require Import SelectModel SelectSpec SelectProofs SelectProps DriverModel DriverProps AdaptModel.
Import ListNotations.
Open Scope nat_scope.

(** ** C46: numbers of determinants to add *)
Fixpoint qsum (l : list Q) : Q := match l with [] => 0 | x :: l => x + qsum l end.
Definition hundred (q : Q) : Prop := (q == 100)%Q.
Lemma increments_length total ps : List.length (increments total ps) = List.length ps.
Proof. induction ps as [|p [|q r] IH]; cbn in *; auto. Qed.
(** As long as the list stays below 100, the numbers add up to the difference of percentages in units of one per cent of the total *)
Lemma partial_sum total : forall i ps, i < List.length ps -> (forall j, 1 <= j <= i -> ~ hundred (nth j ps 0%Q)) ->
  (qsum (firstn i (increments total ps)) == inject_Z (total / 100) * (nth i ps 0 - nth 0 ps 0))%Q.
Proof.
  induction i as [|i IH]; intros ps Hi N; [cbn; ring|]. destruct ps as [|p [|q r]]; cbn [List.length] in Hi; try lia.
  change (increments total (p :: q :: r)) with (increment total p q :: increments total (q :: r)). cbn [firstn qsum].
  assert (E : (increment total p q == inject_Z (total / 100) * (q - p))%Q).
  { unfold increment. destruct (Qeq_bool q 100) eqn:Q1; [|reflexivity]. apply Qeq_bool_iff in Q1. exfalso. apply (N 1); [lia|exact Q1]. }
  rewrite E, (IH (q :: r)); [|cbn [List.length]; lia|intros j Hj; apply (N (S j)); lia]. cbn [nth]. ring.
Qed.
Theorem C46_steps_follow_percentages total ps l i : dets_to_add false total ps = Some l -> i < List.length ps -> (forall j, 1 <= j <= i -> ~ hundred (nth j ps 0%Q)) ->
  (qsum (firstn i l) == inject_Z (total / 100) * (nth i ps 0 - nth 0 ps 0))%Q.
Proof. destruct ps as [|p r]; [discriminate|]. intros E. injection E as <-. exact (partial_sum total i (p :: r)). Qed.
(** If the list ends in 100, and 100 does not occur strictly inside it, the numbers up to the last iteration add up to the total minus the starting percentage *)
Theorem C46_total total ps l : dets_to_add false total ps = Some l -> 2 <= List.length ps -> hundred (last ps 0%Q) ->
  (forall j, 1 <= j -> S j < List.length ps -> ~ hundred (nth j ps 0%Q)) ->
  (qsum (firstn (List.length ps - 1) l) == inject_Z total - inject_Z (total / 100) * nth 0 ps 0)%Q.
Proof.
  intros E. assert (l = increments total ps) as -> by (destruct ps; [discriminate|]; injection E as <-; reflexivity). clear E.
  induction ps as [|p ps IH]; intros L H N; [cbn in L; lia|]. destruct ps as [|q r]; [cbn in L; lia|].
  change (increments total (p :: q :: r)) with (increment total p q :: increments total (q :: r)).
  destruct r as [|s r].
  - cbn in H |- *. unfold increment. apply Qeq_bool_iff in H as H'. rewrite H'. cbn. unfold one_increment. ring.
  - replace (List.length (p :: q :: s :: r) - 1) with (S (List.length (q :: s :: r) - 1)) by (cbn [List.length]; lia). cbn [firstn qsum].
    rewrite IH; [|cbn [List.length]; lia|exact H|intros j Hj Hl; apply (N (S j)); cbn [List.length] in *; lia].
    assert (E : (increment total p q == inject_Z (total / 100) * (q - p))%Q).
    { unfold increment. destruct (Qeq_bool q 100) eqn:Q1; [|reflexivity]. apply Qeq_bool_iff in Q1. exfalso. apply (N 1); [lia|cbn [List.length]; lia|exact Q1]. }
    rewrite E. cbn [nth]. ring.
Qed.
(** An increasing list never asks for a negative number *)
Theorem C46_nonnegative total ps l : (0 <= total)%Z -> dets_to_add false total ps = Some l -> (forall j, S j < List.length ps -> (nth j ps 0 <= nth (S j) ps 0)%Q) ->
  Forall (fun x => 0 <= x)%Q l.
Proof.
  intros T E. assert (l = increments total ps) as -> by (destruct ps; [discriminate|]; injection E as <-; reflexivity). clear E.
  induction ps as [|p ps IH]; intros M; [constructor|]. destruct ps as [|q r]; [repeat constructor; discriminate|].
  change (increments total (p :: q :: r)) with (increment total p q :: increments total (q :: r)). constructor; [|apply IH; intros j Hj; apply (M (S j)); cbn [List.length] in *; lia].
  assert (PQ : (p <= q)%Q) by (apply (M 0); cbn [List.length]; lia).
  assert (O : (0 <= inject_Z (one_increment total))%Q) by (change 0%Q with (inject_Z 0); rewrite <- Zle_Qle; apply Z.div_pos; lia).
  assert (O' : (inject_Z (one_increment total) * 100 <= inject_Z total)%Q).
  { change 100%Q with (inject_Z 100). rewrite <- inject_Z_mult, <- Zle_Qle. unfold one_increment. pose proof (Z.mul_div_le total 100). lia. }
  unfold increment. destruct (Qeq_bool q 100) eqn:Q1; [apply Qeq_bool_iff in Q1|]; generalize dependent (inject_Z (one_increment total)); intros x O; generalize (inject_Z total); intros t O'.
  - assert (K : (0 <= x * (100 - p))%Q) by (apply Qmult_le_0_compat; lra). lra.
  - apply Qmult_le_0_compat; lra.
Qed.
(** Under RHF symmetry each step asks for half the number, rounded down, because every selected determinant is added together with its spin-flipped one:
    twice the sum falls short of the unrestricted one by less than two per step *)
Lemma trunc_half x : (0 <= x)%Q -> (2 * inject_Z (trunc (x / 2)) <= x /\ x < 2 * inject_Z (trunc (x / 2)) + 2)%Q.
Proof.
  intros H. unfold trunc. assert (H' : (0 <= x / 2)%Q) by (apply Qle_shift_div_l; lra). apply Qle_bool_iff in H'. rewrite H'.
  pose proof (Qfloor_le (x / 2)) as A. pose proof (Qlt_floor (x / 2)) as B. rewrite inject_Z_plus in B. change (inject_Z 1) with 1%Q in B.
  assert (D : (x == 2 * (x / 2))%Q) by (field; lra). split.
  - rewrite D at 2. apply Qmult_le_l; [lra|exact A].
  - rewrite D at 1. set (f := inject_Z (Qfloor (x / 2))) in *. set (h := (x / 2)%Q) in *. lra.
Qed.
Theorem C46_rhf_halves l : Forall (fun x => 0 <= x)%Q l ->
  (2 * qsum (halve true l) <= qsum l)%Q /\ (qsum l <= 2 * qsum (halve true l) + 2 * inject_Z (Z.of_nat (List.length l)))%Q /\ List.length (halve true l) = List.length l.
Proof.
  intros H. split; [|split; [|apply map_length]].
  - induction H as [|x l Hx H IH]; [vm_compute; discriminate|]. cbn [halve map qsum] in *. destruct (trunc_half x Hx) as [A _]. rewrite Qmult_plus_distr_r. apply Qplus_le_compat; assumption.
  - induction H as [|x l Hx H IH]; [vm_compute; discriminate|]. destruct (trunc_half x Hx) as [_ A]. cbn [halve map qsum List.length] in *. rewrite Nat2Z.inj_succ. unfold Z.succ. rewrite inject_Z_plus. change (inject_Z 1) with 1%Q.
    set (n := inject_Z (Z.of_nat (List.length l))) in *. set (h := inject_Z (trunc (x / 2))) in *. set (s := qsum (map (fun x : Q => inject_Z (trunc (x / 2))) l)) in *. lra.
Qed.
(** What goes wrong outside these hypotheses: a list that reaches 100 twice asks for more than the total; a decreasing one asks for a negative number *)
Theorem C46_hundred_twice_refuted : exists total ps l, dets_to_add false total ps = Some l /\ hundred (last ps 0%Q) /\ (inject_Z total < qsum (firstn (List.length ps - 1) l))%Q.
Proof. exists 150%Z, [0; 100; 100]%Q. eexists. split; [reflexivity|]. split; [reflexivity|]. vm_compute. reflexivity. Qed.
Theorem C46_decreasing_refuted : exists total ps l, (0 <= total)%Z /\ dets_to_add false total ps = Some l /\ ~ Forall (fun x => 0 <= x)%Q l.
Proof. exists 500%Z, [10; 5; 100]%Q. eexists. split; [lia|]. split; [reflexivity|]. intros H. inversion H as [|? ? A]. vm_compute in A. apply A. reflexivity. Qed.
(** The fixed-growth scheme has one number for each iteration that selects: all but the last *)
Lemma nth_rep (x d : Q) n : forall i, i < n -> nth i (repeat x n) d = x.
Proof. induction n as [|n IH]; intros [|i] H; cbn; try lia; auto. apply IH. lia. Qed.
Theorem C46_fixed_growth rhf n f nmacro : List.length (dets_to_add_fixed rhf n f nmacro) = nmacro - 1 /\
  forall i, i < nmacro - 1 -> nth i (dets_to_add_fixed rhf n f nmacro) 0%Q = let x := inject_Z (trunc (inject_Z n * f)) in if rhf then inject_Z (trunc (x / 2)) else x.
Proof.
  unfold dets_to_add_fixed, halve. split; [destruct rhf; rewrite ?map_length; apply repeat_length|]. intros i Hi.
  destruct rhf.
  - rewrite (nth_indep _ 0%Q (inject_Z (trunc (0 / 2)))) by (rewrite map_length, repeat_length; exact Hi). rewrite (map_nth (fun x => inject_Z (trunc (x / 2)))). f_equal. f_equal. f_equal. apply nth_rep. exact Hi.
  - apply nth_rep. exact Hi.
Qed.
Example C46_instance : exists l, dets_to_add false 1234 [1; 5; 20; 100]%Q = Some l /\ (qsum (firstn 3 l) == 1222)%Q /\
  (forall j, S j < 4 -> (nth j [1; 5; 20; 100] 0 <= nth (S j) [1; 5; 20; 100] 0)%Q) /\ (forall j, 1 <= j -> S j < 4 -> ~ hundred (nth j [1; 5; 20; 100]%Q 0%Q)).
Proof.
  eexists. split; [reflexivity|]. split; [vm_compute; reflexivity|]. split.
  - intros [|[|[|j]]] H; try lia; vm_compute; discriminate.
  - intros [|[|[|j]]] H H'; try lia; vm_compute; discriminate.
Qed.

(** ** C47: the loop *)
(** One CC(P) stage: what each of its routines sees *)
Definition hbar_of (two_body : bool) : string := if two_body then "ccsd" else "ccsdt_p".
Lemma ccp_spec d sp fin : let '(d', es, ok) := run_ccp d "ccsdt_p" sp fin in same_core d d' /\ seen d SCCP "ccsdt_p" es /\ (ok = true -> d_T d' <> None) /\ ((d_rhf d = true -> sp = true) -> fin = true -> ok = true).
Proof.
  unfold run_ccp. change (isin "ccsdt_p" cc_modules) with true. cbn [negb]. pose proof (sop_core d "ccsdt_p") as C. set (d1 := set_operator_params d "ccsdt_p") in *. clearbody d1.
  destruct C as (C1 & C2 & C3 & C4 & C5). rewrite C3. destruct (d_rhf d) eqn:R; destruct sp; cbn [andb negb].
  2: { split; [repeat split; congruence|]. split; [intros ? []|]. split; [discriminate|]. intros K. specialize (K eq_refl). discriminate. }
  all: destruct (d_T d1) eqn:ET; (split; [repeat split; cbn; congruence|]); (split; [intros e [<-|[]]; cbn; repeat split; congruence|]); (split; [intros _; cbn; congruence|auto]).
Qed.
Lemma hb_spec d m fin : isin ("hbar_" ++ m) hbar_modules = true -> isin m ["ccs"]%string = false -> let '(d', es, ok) := run_hbar d m fin in
  (ok = true -> d_ham d' = HBar (lower m) (d_ham d) /\ d_flag d' = true) /\ d_rhf d' = d_rhf d /\ d_T d' = d_T d /\ d_L d' = d_L d /\ (forall e, In e es -> e_step e = SHbar /\ e_method e = m /\ e_ham e = d_ham d) /\ (d_T d <> None -> fin = true -> ok = true).
Proof.
  intros I1 I2. unfold run_hbar. rewrite I1, I2. cbn [negb]. destruct (d_T d) eqn:ET.
  - destruct fin; (split; [try discriminate; auto|]); (split; [reflexivity|]); (split; [exact ET|]); (split; [reflexivity|]); (split; [intros e [<-|[]]; auto|]); intros _ K; try discriminate; reflexivity.
  - split; [discriminate|]. split; [reflexivity|]. split; [exact ET|]. split; [reflexivity|]. split; [intros ? []|]. congruence.
Qed.
Lemma left_spec s m d o fin : let '(d', es, ok) := left_loop s m d o [0] fin in same_core d d' /\ seen d s m es /\ d_T d' = d_T d /\ (ok = true -> d_L d' 0 <> None) /\ (d_T d <> None -> fin 0 = true -> ok = true).
Proof.
  pose proof (left_loop_ok s m o fin [0] d) as K. cbn [left_loop fill_L andb Nat.eqb] in *. destruct (d_L d 0) eqn:EL.
  - cbn [negb] in *. destruct (fin 0); destruct K as [K1 K2]; (split; [exact K1|]); (split; [exact K2|]); (split; [reflexivity|]); (split; [congruence|]); intros _ K3; try discriminate; reflexivity.
  - destruct (d_T d) eqn:ET; cbn [negb] in *.
    + destruct (fin 0); destruct K as [K1 K2]; (split; [exact K1|]); (split; [exact K2|]); (split; [exact ET|]); (split; [cbn; unfold upd; cbn; congruence|]); intros _ K3; try discriminate; reflexivity.
    + destruct K as [K1 K2]. split; [exact K1|]. split; [exact K2|]. split; [exact ET|]. split; [discriminate|congruence].
Qed.
(** What a routine of a macro-iteration starting from Hamiltonian [h] may see *)
Definition stage_event (two_body : bool) (h : ham) (e : event) : Prop :=
  match e_step e with
  | SCCP => e_method e = "ccsdt_p"%string /\ e_ham e = h
  | SHbar => e_method e = hbar_of two_body /\ e_ham e = h
  | SLeft => two_body = true /\ e_method e = "left_ccsd"%string /\ e_ham e = HBar (hbar_of two_body) h
  | SLeftP => two_body = false /\ e_method e = "left_ccsdt_p"%string /\ e_ham e = HBar (hbar_of two_body) h
  | SCorr => e_ham e = HBar (hbar_of two_body) h \/ (two_body = true /\ e_method e = "ccp3"%string /\ e_ham e = NoVT3 (HBar (hbar_of two_body) h))
  | _ => False
  end.
Lemma calls_spec tb l fin d : let '(d', es, ok) := calls d (ccp_calls tb l fin) in
  d_rhf d' = d_rhf d /\ (forall e, In e es -> e_step e <> SCorr /\ stage_event tb (d_ham d) e) /\
  (ok = true -> d_ham d' = HBar (hbar_of tb) (d_ham d) /\ d_flag d' = true /\ d_T d' <> None /\ d_L d' 0 <> None) /\
  ((d_rhf d = true -> List.length (l aaa) = List.length (l bbb) /\ List.length (l aab) = List.length (l abb)) -> fin 0 = true -> fin 1 = true -> fin 2 = true -> ok = true).
Proof.
  unfold ccp_calls. set (sp := (_ =? _) && (_ =? _)). cbn [calls call]. pose proof (ccp_spec d sp (fin 0)) as K. destruct (run_ccp d "ccsdt_p" sp (fin 0)) as [[d1 es1] ok1].
  destruct K as ((H1 & _ & R1 & _ & _) & S1 & T1 & O1).
  assert (E1 : forall e, In e es1 -> e_step e <> SCorr /\ stage_event tb (d_ham d) e). { intros e He. destruct (S1 e He) as (A & B & C & _). unfold stage_event. rewrite A. split; [discriminate|auto]. }
  assert (SP : (d_rhf d = true -> List.length (l aaa) = List.length (l bbb) /\ List.length (l aab) = List.length (l abb)) -> d_rhf d = true -> sp = true).
  { intros K R. destruct (K R) as [A B]. unfold sp. rewrite A, B, !Nat.eqb_refl. reflexivity. }
  destruct ok1; [|split; [exact R1|]; split; [exact E1|]; split; [discriminate|]; intros K F0 _ _; specialize (O1 (SP K) F0); discriminate].
  specialize (T1 eq_refl).
  assert (REST : forall hm s lm o (LC : cmd), isin ("hbar_" ++ hm) hbar_modules = true -> isin hm ["ccs"]%string = false -> hm = hbar_of tb -> lower hm = hm ->
    (forall d2, d_flag d2 = true -> exists d3, same_core d2 d3 /\ d_T d3 = d_T d2 /\ call d2 LC = left_loop s lm d3 (o d3) [0] (fun _ => fin 2)) ->
    (forall h e, e_step e = s -> e_method e = lm -> e_ham e = HBar (hbar_of tb) h -> e_step e <> SCorr /\ stage_event tb h e) ->
    let '(d', es, ok) := (let '(d2, es2, ok2) := call d1 (Hb hm (fin 1)) in if ok2 then let '(d', es', ok') := calls d2 [LC] in (d', (es2 ++ es')%list, ok') else (d2, es2, false)) in
    d_rhf d' = d_rhf d1 /\ (forall e, In e es -> e_step e <> SCorr /\ stage_event tb (d_ham d1) e) /\
    (ok = true -> d_ham d' = HBar (hbar_of tb) (d_ham d1) /\ d_flag d' = true /\ d_T d' <> None /\ d_L d' 0 <> None) /\ (fin 1 = true -> fin 2 = true -> ok = true)).
  { intros hm s lm o LC I1 I2 HM LW HL HE. cbn [call calls]. pose proof (hb_spec d1 hm (fin 1) I1 I2) as K. destruct (run_hbar d1 hm (fin 1)) as [[d2 es2] ok2]. destruct K as (K1 & K2 & K3 & K4 & K5 & K6).
    assert (E2 : forall e, In e es2 -> e_step e <> SCorr /\ stage_event tb (d_ham d1) e). { intros e He. destruct (K5 e He) as (A & B & C). unfold stage_event. rewrite A. split; [discriminate|]. split; [congruence|exact C]. }
    destruct ok2; [|split; [exact K2|]; split; [exact E2|]; split; [discriminate|]; intros F _; specialize (K6 T1 F); discriminate].
    destruct (K1 eq_refl) as [H2 F2]. rewrite LW, HM in H2. destruct (HL d2 F2) as (d3 & (C1 & C2 & C3 & _) & CT & ->). pose proof (left_spec s lm d3 (o d3) (fun _ => fin 2)) as K.
    destruct (left_loop s lm d3 (o d3) [0] (fun _ => fin 2)) as [[d4 es4] ok4]. destruct K as ((L1 & L2 & L3 & _) & LS & LT & LL & LO).
    assert (E4 : forall e, In e es4 -> e_step e <> SCorr /\ stage_event tb (d_ham d1) e). { intros e He. destruct (LS e He) as (A & B & C & _). apply HE; congruence. }
    destruct ok4.
    - split; [congruence|]. split; [intros e He; apply in_app_iff in He as [He|He]; [auto|]; rewrite app_nil_r in He; auto|]. split; [|auto]. intros _. split; [congruence|]. split; [congruence|]. split; [|auto]. rewrite LT, CT, K3. exact T1.
    - split; [congruence|]. split; [intros e He; apply in_app_iff in He as [He|He]; auto|]. split; [discriminate|]. intros _ F. apply LO; [rewrite CT, K3; exact T1|exact F]. }
  rewrite H1, R1 in REST.
  assert (FIN : let '(d', es, ok) := calls d1 (if tb then [Hb "ccsd" (fin 1); Left "left_ccsd" [0] (fun _ => fin 2)] else [Hb "ccsdt_p" (fin 1); LeftP "left_ccsdt_p" [0] (fun _ => fin 2)]) in
    d_rhf d' = d_rhf d /\ (forall e, In e es -> e_step e <> SCorr /\ stage_event tb (d_ham d) e) /\
    (ok = true -> d_ham d' = HBar (hbar_of tb) (d_ham d) /\ d_flag d' = true /\ d_T d' <> None /\ d_L d' 0 <> None) /\ (fin 1 = true -> fin 2 = true -> ok = true)).
  { destruct tb.
    - apply (REST "ccsd"%string SLeft "left_ccsd"%string cluster (Left "left_ccsd" [0] (fun _ => fin 2))); try reflexivity.
      + intros d2 F2. exists (set_operator_params d2 "left_ccsd"). pose proof (sop_core d2 "left_ccsd") as C. split; [exact C|]. split; [apply (sop_vecs d2 "left_ccsd")|]. cbn [call]. unfold run_leftcc. change (isin "left_ccsd" left_modules) with true. cbn [negb]. destruct C as (_ & -> & _). rewrite F2. reflexivity.
      + intros h e A B C. unfold stage_event. rewrite A. split; [discriminate|auto].
    - apply (REST "ccsdt_p"%string SLeftP "left_ccsdt_p"%string cluster_p (LeftP "left_ccsdt_p" [0] (fun _ => fin 2))); try reflexivity.
      + intros d2 F2. exists (set_operator_params d2 "left_ccsdt_p"). pose proof (sop_core d2 "left_ccsdt_p") as C. split; [exact C|]. split; [apply (sop_vecs d2 "left_ccsdt_p")|]. cbn [call]. unfold run_leftccp. change (isin "left_ccsdt_p" left_modules) with true. cbn [negb]. destruct C as (_ & -> & _). rewrite F2. reflexivity.
      + intros h e A B C. unfold stage_event. rewrite A. split; [discriminate|auto]. }
  clear REST. destruct (calls d1 _) as [[d2 es2] ok2]. destruct FIN as (A & B & C & D). split; [exact A|]. split; [intros e He; apply in_app_iff in He as [He|He]; auto|]. split; [exact C|auto].
Qed.
Lemma correct_spec o d last fin h : d_flag d = true -> d_T d <> None -> d_L d 0 <> None -> d_ham d = HBar (hbar_of (o_two_body o)) h -> let '(d', es, ok) := correct o d last fin in
  d_rhf d' = d_rhf d /\ (forall e, In e es -> e_step e = SCorr /\ stage_event (o_two_body o) h e) /\
  (d_ham d' = HBar (hbar_of (o_two_body o)) h \/ (o_two_body o = true /\ last = true /\ d_ham d' = NoVT3 (HBar (hbar_of (o_two_body o)) h))) /\ ok = fin.
Proof.
  intros F HT HL HH. unfold correct. destruct last.
  - cbn [call]. unfold run_ccp3. change (isin "ccp3" ["crcc23"; "crcc23_chol"]) with false. change (isin "ccp3" ["ccsd(t)"]) with false. change (isin "ccp3" ["cct3"]) with false. change (isin "ccp3" ["ccp3"]) with true. cbn iota. rewrite F. cbn [negb].
    destruct (strip d (o_two_body o)) as [d1|] eqn:ES; [|unfold strip in ES; destruct (o_two_body o); [|discriminate]; destruct (d_L d 0); [discriminate|congruence]].
    assert (K : d_rhf d1 = d_rhf d /\ d_L d1 = d_L d /\ (d_ham d1 = d_ham d \/ (o_two_body o = true /\ d_ham d1 = NoVT3 (d_ham d)))).
    { unfold strip in ES. destruct (o_two_body o); [|injection ES as <-; auto]. destruct (d_L d 0); [|congruence]. injection ES as <-. destruct (2 <? o_ord o0); cbn; auto. }
    destruct K as (K1 & K2 & K3). unfold corr1. rewrite K2. destruct (d_L d 0) as [l|]; [|congruence]. cbn [Nat.eqb negb andb]. 
    assert (E : forall e, In e [ev SCorr "ccp3" d1 (Some l)] -> e_step e = SCorr /\ stage_event (o_two_body o) h e).
    { intros e [<-|[]]. split; [reflexivity|]. unfold stage_event. cbn. destruct K3 as [K3|[TB K3]]; [left; congruence|right; split; [exact TB|]; split; [reflexivity|congruence]]. }
    destruct fin; (split; [exact K1|]); (split; [exact E|]); (split; [|reflexivity]); cbn; (destruct K3 as [K3|[TB K3]]; [left; congruence|right; split; [exact TB|]; split; [reflexivity|congruence]]).
  - destruct (d_T d); [|congruence]. destruct (d_L d 0) as [l|]; [|congruence]. split; [reflexivity|]. split; [|split; [left; exact HH|reflexivity]].
    intros e [<-|[]]. split; [reflexivity|]. left. exact HH.
Qed.

Section Run.
Variables (y : symdata) (o : options) (base : nat) (epq : nat -> R) (sl : nat -> selection) (fin : nat -> nat -> bool).
Hypothesis WF : forall i, well_formed (sl i).
Hypothesis NO : forall i, never_ones (sl i).
Let sel i := rows_of (sl i).
Definition converged_at (i : nat) : Prop := 0 < i /\ (Rabs (epq i - epq (i - 1)) < o_tol o)%R.
Definition full_at (i nd : nat) : Prop := 0 < i /\ o_ndet_max o <= nd.
(** State before iteration [i]: the P space is what the selections of the iterations before it make of the placeholder lists *)
Definition reached (rhf : bool) (i : nat) (l : lists) (n : counts) : Prop := add_all y rhf (map sl (seq 0 i)) (fun _ => [ones]) (fun _ _ => 0) = Some (l, n).
Lemma add_all_app rhf : forall p q ol m, add_all y rhf (p ++ q) ol m = match add_all y rhf p ol m with Some (a, b) => add_all y rhf q a b | None => None end.
Proof. induction p as [|p ps IH]; intros; cbn [app add_all]; [reflexivity|]. destruct (add_spinorbital_triples_to_pspace y rhf (rows_of p) ol m) as [[a b]|]; [apply IH|reflexivity]. Qed.
Lemma sl_wf i k : Forall well_formed (map sl (seq i k)) /\ Forall never_ones (map sl (seq i k)).
Proof. split; apply Forall_forall; intros x H; apply in_map_iff in H as (j & <- & _); auto. Qed.
Lemma reached_next rhf i l n : reached rhf i l n -> exists l' n', add_spinorbital_triples_to_pspace y rhf (sel i) l n = Some (l', n') /\ reached rhf (S i) l' n'.
Proof.
  intros H. unfold reached in *. rewrite seq_S, map_app. cbn [map Nat.add]. rewrite add_all_app, H. cbn [add_all].
  destruct (add_all_correct y rhf (map sl (seq 0 (S i))) (fun _ => [ones]) (fun _ _ => 0) (proj1 (sl_wf 0 (S i))) (proj2 (sl_wf 0 (S i))) ltac:(discriminate)) as (l' & n' & E & _).
  rewrite seq_S, map_app in E. cbn [map Nat.add] in E. rewrite add_all_app, H in E. cbn [add_all] in E. exists l', n'. unfold sel. destruct (add_spinorbital_triples_to_pspace y rhf (rows_of (sl i)) l n) as [[a b]|]; [|discriminate]. injection E as -> ->. auto.
Qed.
(** What holds of a finished run *)
Record run_ok (rhf : bool) (nm : nat) (bare : ham) (h0 : ham) (i0 k : nat) (r : adapt * list macro * outcome) : Prop := {
  r_numbers : map m_i (snd (fst r)) = seq i0 (List.length (snd (fst r))) /\ 0 < List.length (snd (fst r)) <= k;
  r_events : forall m e, In m (snd (fst r)) -> In e (m_events m) -> stage_event (o_two_body o) (if m_i m =? i0 then h0 else bare) e;
  r_lists : forall m, In m (snd (fst r)) -> m_ndet m = n_det base (m_lists m) /\ exists n, reached rhf (m_i m) (m_lists m) n;
  r_early : forall m, In m (snd (fst r)) -> S (m_i m) < i0 + List.length (snd (fst r)) -> ~ converged_at (m_i m) /\ ~ full_at (m_i m) (m_ndet m) /\ m_i m <> nm - 1;
  r_outcome : forall m, In m (snd (fst r)) -> S (m_i m) = i0 + List.length (snd (fst r)) ->
    match snd r with Converged => converged_at (m_i m) | Full => full_at (m_i m) (m_ndet m) /\ ~ converged_at (m_i m) | Last => m_i m = nm - 1 /\ ~ converged_at (m_i m) /\ ~ full_at (m_i m) (m_ndet m)
    | Raised => exists j, j < 4 /\ fin (m_i m) j = false end;
  r_after : snd r <> Raised -> exists h, h = (if List.length (snd (fst r)) =? 1 then h0 else bare) /\
    (d_ham (a_drv (fst (fst r))) = HBar (hbar_of (o_two_body o)) h \/ (o_two_body o = true /\ d_ham (a_drv (fst (fst r))) = NoVT3 (HBar (hbar_of (o_two_body o)) h)));
  r_frame : a_nmacro (fst (fst r)) = nm /\ a_bare (fst (fst r)) = bare /\ d_rhf (a_drv (fst (fst r))) = rhf }.
Lemma reached_symmetric i l n : reached true i l n -> List.length (l aaa) = List.length (l bbb) /\ List.length (l aab) = List.length (l abb).
Proof.
  intros H. assert (NE : forall s : spincase, (fun _ : spincase => [ones]) s <> []) by discriminate.
  destruct (C17_restricted_invariant y _ (fun _ => [ones]) (fun _ _ => 0) _ _ (proj1 (sl_wf 0 i)) (proj2 (sl_wf 0 i)) NE eq_refl eq_refl H) as [A B]. rewrite A, B, map_length. auto.
Qed.
Lemma run_one rhf nm bare h0 i a d es out : (out = Raised -> exists j, j < 4 /\ fin i j = false) -> d_rhf d = rhf -> a_bare a = bare -> a_nmacro a = nm -> forall n, reached rhf i (a_lists a) n ->
  (forall e, In e es -> stage_event (o_two_body o) h0 e) ->
  match out with Converged => converged_at i | Full => full_at i (n_det base (a_lists a)) /\ ~ converged_at i | Last => i = nm - 1 /\ ~ converged_at i /\ ~ full_at i (n_det base (a_lists a)) | Raised => True end ->
  (out <> Raised -> d_ham d = HBar (hbar_of (o_two_body o)) h0 \/ (o_two_body o = true /\ d_ham d = NoVT3 (HBar (hbar_of (o_two_body o)) h0))) ->
  forall k, 0 < k -> run_ok rhf nm bare h0 i k (mkAdapt d (a_nmacro a) (a_lists a) (a_counts a) (a_bare a), [mkMacro i (a_lists a) (n_det base (a_lists a)) es], out).
Proof.
  intros RA RH AB AN n RE EV OUT HA k Hk. split; cbn [fst snd List.length map m_i a_drv a_nmacro a_bare].
  - split; [reflexivity|lia].
  - intros m e [<-|[]] He. cbn [m_i m_events] in *. rewrite Nat.eqb_refl. auto.
  - intros m [<-|[]]. cbn. eauto.
  - intros m [<-|[]]. cbn. lia.
  - intros m [<-|[]] _. cbn [m_i m_ndet]. destruct out; auto.
  - intros NR. exists h0. auto.
  - auto.
Qed.
Lemma loop_ok rhf nm bare : forall k i a n, k + i = nm -> 0 < k -> a_bare a = bare -> a_nmacro a = nm -> d_rhf (a_drv a) = rhf -> reached rhf i (a_lists a) n -> a_counts a = n ->
  run_ok rhf nm bare (d_ham (a_drv a)) i k (loop y o base epq sel fin k i a).
Proof.
  induction k as [|k IH]; intros i a n Hk Kpos AB AN RH RE AC; [lia|]. cbn [loop]. set (h0 := d_ham (a_drv a)).
  pose proof (calls_spec (o_two_body o) (a_lists a) (fin i) (a_drv a)) as K. destruct (calls (a_drv a) _) as [[d1 es1] ok1]. destruct K as (K1 & K2 & K3 & K4). fold h0 in K2, K3.
  destruct ok1; cbn [negb].
  2: { apply (run_one rhf nm bare h0 i a d1 es1 Raised) with (n := n); try congruence; try lia; try exact RE; try exact I; [|intros e He; apply K2; exact He].
       intros _. destruct (fin i 0) eqn:F0; [|exists 0; split; [lia|exact F0]]. destruct (fin i 1) eqn:F1; [|exists 1; split; [lia|exact F1]]. destruct (fin i 2) eqn:F2; [|exists 2; split; [lia|exact F2]].
       exfalso. assert (Q : false = true); [|discriminate]. apply K4; auto. intros R. rewrite RH in R. rewrite R in RE. eapply reached_symmetric; exact RE. }
  destruct (K3 eq_refl) as (H1 & F1 & T1 & L1). pose proof (correct_spec o d1 (i =? a_nmacro a - 1) (fin i 3) h0 F1 T1 L1 H1) as C. destruct (correct o d1 _ (fin i 3)) as [[d2 es2] ok2]. destruct C as (C1 & C2 & C3 & C4).
  assert (EV : forall e, In e (es1 ++ es2)%list -> stage_event (o_two_body o) h0 e) by (intros e He; apply in_app_iff in He as [He|He]; [apply K2|apply C2]; exact He).
  assert (RH2 : d_rhf d2 = rhf) by congruence.
  assert (AFT : d_ham d2 = HBar (hbar_of (o_two_body o)) h0 \/ (o_two_body o = true /\ d_ham d2 = NoVT3 (HBar (hbar_of (o_two_body o)) h0))) by tauto.
  destruct ok2; cbn [negb].
  2: { apply (run_one rhf nm bare h0 i a d2 _ Raised) with (n := n); auto; try lia. intros _. exists 3. split; [lia|congruence]. }
  assert (CV : forall b, (0 <? i) && (if Rlt_dec (Rabs (epq i - epq (i - 1))) (o_tol o) then true else false) = b -> if b then converged_at i else ~ converged_at i).
  { intros b <-. unfold converged_at. destruct (Nat.ltb_spec 0 i); cbn [andb]; [|lia]. destruct (Rlt_dec _ _); [auto|tauto]. }
  destruct (_ && (if Rlt_dec _ _ then true else false)) eqn:EC; specialize (CV _ eq_refl); cbn iota in CV.
  { apply (run_one rhf nm bare h0 i a d2 _ Converged) with (n := n); try discriminate; auto; lia. }
  destruct ((0 <? i) && (o_ndet_max o <=? n_det base (a_lists a))) eqn:EF.
  { apply (run_one rhf nm bare h0 i a d2 _ Full) with (n := n); try discriminate; auto; try lia. apply andb_true_iff in EF as [E1 E2]. apply Nat.ltb_lt in E1. apply Nat.leb_le in E2. split; [split; assumption|exact CV]. }
  assert (NF : ~ full_at i (n_det base (a_lists a))) by (intros [A B]; apply Nat.ltb_lt in A; apply Nat.leb_le in B; rewrite A, B in EF; discriminate).
  destruct (Nat.eqb_spec i (a_nmacro a - 1)) as [EL|EL].
  { apply (run_one rhf nm bare h0 i a d2 _ Last) with (n := n); try discriminate; auto; try lia. split; [lia|auto]. }
  subst n. destruct (reached_next rhf i (a_lists a) (a_counts a) RE) as (l' & n' & E & RE'). rewrite RH2, E.
  set (a1 := mkAdapt (reset_driver o d2 (a_bare a)) (a_nmacro a) l' n' (a_bare a)).
  assert (D1 : d_ham (a_drv a1) = bare /\ d_rhf (a_drv a1) = rhf) by (unfold a1, reset_driver; cbn; destruct (o_reset o); cbn; auto).
  destruct D1 as [DH DR]. specialize (IH (S i) a1 n' ltac:(lia) ltac:(lia) AB AN DR RE' eq_refl). rewrite DH in IH.
  destruct (loop y o base epq sel fin k (S i) a1) as [[a2 ms] out]. destruct IH as [I1 I2 I3 I4 I5 I6 I7]. cbn [fst snd] in *. destruct I1 as [I1 I1'].
  split; cbn [fst snd List.length map m_i].
  - split; [cbn [seq]; f_equal; exact I1|lia].
  - intros m e [<-|Hm] He; [cbn [m_i m_events] in *; rewrite Nat.eqb_refl; auto|]. specialize (I2 m e Hm He).
    assert (G : In (m_i m) (seq (S i) (List.length ms))) by (rewrite <- I1; now apply in_map). apply in_seq in G. replace (m_i m =? i) with false by (symmetry; apply Nat.eqb_neq; lia). destruct (m_i m =? S i); exact I2.
  - intros m [<-|Hm]; [|auto]. cbn. eauto.
  - intros m [<-|Hm] Hs; [cbn [m_i m_ndet]; split; [exact CV|split; [exact NF|congruence]]|]. apply I4; [exact Hm|lia].
  - intros m [<-|Hm] Hs; [cbn [m_i] in Hs; lia|]. apply I5; [exact Hm|lia].
  - intros NR. destruct (I6 NR) as (h & -> & I). exists bare. replace (S (List.length ms) =? 1) with false by (symmetry; apply Nat.eqb_neq; lia). split; [reflexivity|]. destruct (List.length ms =? 1); exact I.
  - exact I7.
Qed.
End Run.

(** Everything below is about a run of a freshly created adaptive driver. The numerics enter as arbitrary sequences: the CC(P;Q) energies [epq], the
    selected determinants [sl] (any well-formed lists; none is the placeholder row) and which routine raises ([fin]). *)
Section Statements.
Variables (y : symdata) (o : options) (base : nat) (epq : nat -> R) (sl : nat -> selection) (fin : nat -> nat -> bool) (d : drv) (ps : option (list Q)).
Hypothesis WF : forall i, well_formed (sl i).
Hypothesis NO : forall i, never_ones (sl i).
Let nmacro := match ps with None => 11 | Some l => List.length l end.
Hypothesis NZ : 0 < nmacro.
Let r := run y o base epq (fun i => rows_of (sl i)) fin (new_adapt d ps).
Let iterations := snd (fst r).
Let stopped_because := snd r.
Lemma r_ok : run_ok y o base epq sl fin (d_rhf d) nmacro (d_ham d) (d_ham d) 0 nmacro r.
Proof. exact (loop_ok y o base epq sl fin WF NO (d_rhf d) nmacro (d_ham d) nmacro 0 (new_adapt d ps) (fun _ _ => 0) (Nat.add_0_r _) NZ eq_refl eq_refl eq_refl eq_refl eq_refl). Qed.
(** C47, 1: the iterations are numbered 0, 1, 2, ...; there is at least one and at most nmacro; the loop stops at the first iteration after the zeroth at
    which the CC(P;Q) energy changed by less than the tolerance or the P space has reached n_det_max, or else at iteration nmacro - 1, and for no other reason
    except that a routine raised *)
Theorem C47_stops :
  0 < List.length iterations <= nmacro /\ map m_i iterations = seq 0 (List.length iterations) /\
  (forall m, In m iterations -> S (m_i m) < List.length iterations -> ~ converged_at o epq (m_i m) /\ ~ full_at o (m_i m) (m_ndet m) /\ m_i m <> nmacro - 1) /\
  (forall m, In m iterations -> S (m_i m) = List.length iterations ->
     match stopped_because with
     | Converged => converged_at o epq (m_i m)
     | Full => full_at o (m_i m) (m_ndet m) /\ ~ converged_at o epq (m_i m)
     | Last => m_i m = nmacro - 1 /\ ~ converged_at o epq (m_i m) /\ ~ full_at o (m_i m) (m_ndet m)
     | Raised => exists j, j < 4 /\ fin (m_i m) j = false
     end).
Proof. destruct r_ok as [[A B] _ _ C D _ _]. auto. Qed.
(** so it never raises on its own account *)
Theorem C47_never_raises : (forall i j, fin i j = true) -> stopped_because <> Raised.
Proof.
  intros F E. destruct C47_stops as ((A & _) & B & _ & C). assert (H : In (List.length iterations - 1) (map m_i iterations)) by (rewrite B; apply in_seq; lia).
  apply in_map_iff in H as (m & H1 & H2). specialize (C m H2 ltac:(lia)). rewrite E in C. destruct C as (j & _ & C). rewrite F in C. discriminate.
Qed.
(** C47, 2: every CC(P) calculation and every similarity transformation, of every macro-iteration, starts from the Hamiltonian the driver was created
    with; every left calculation and every correction uses that Hamiltonian transformed exactly once (the final two-body correction possibly without its V*T3 terms) *)
Theorem C47_hamiltonians m e : In m iterations -> In e (m_events m) ->
  match e_step e with
  | SCCP | SHbar => e_ham e = d_ham d
  | SLeft | SLeftP => e_ham e = HBar (if o_two_body o then "ccsd" else "ccsdt_p") (d_ham d)
  | SCorr => e_ham e = HBar (if o_two_body o then "ccsd" else "ccsdt_p") (d_ham d) \/ e_ham e = NoVT3 (HBar (if o_two_body o then "ccsd" else "ccsdt_p") (d_ham d))
  | _ => False
  end.
Proof.
  intros Hm He. destruct r_ok as [_ K _ _ _ _ _]. specialize (K m e Hm He). replace (if m_i m =? 0 then d_ham d else d_ham d) with (d_ham d) in K by now destruct (m_i m =? 0).
  unfold stage_event in K. destruct (e_step e); try exact K; tauto.
Qed.
(** C47, 3: the P space of iteration i consists of exactly the determinants selected in iterations 0 to i-1 (with their spin-flipped partners under RHF
    symmetry), in order of selection, so it only grows; n_det counts them *)
Theorem C47_pspace m : In m iterations ->
  (forall s, contents (m_lists m s) = flat_map (additions (d_rhf d) s) (map sl (seq 0 (m_i m)))) /\
  m_ndet m = base + (List.length (contents (m_lists m aaa)) + List.length (contents (m_lists m aab)) + List.length (contents (m_lists m abb)) + List.length (contents (m_lists m bbb))).
Proof.
  intros Hm. destruct r_ok as [_ _ K _ _ _ _]. destruct (K m Hm) as (ND & n & RE). unfold reached in RE.
  destruct (C17_history y (d_rhf d) (map sl (seq 0 (m_i m))) (fun _ _ => 0) (proj1 (sl_wf sl WF NO 0 (m_i m))) (proj2 (sl_wf sl WF NO 0 (m_i m)))) as (l & n' & E & C & P & _).
  rewrite RE in E. injection E as <- <-. split; [exact C|]. rewrite ND.
  assert (Q : forall s, List.length (m_lists m s) = List.length (contents (m_lists m s)) + (if row_eq_dec (hd [] (m_lists m s)) ones6 then 1 else 0)).
  { intros s. unfold contents. change ones6 with ones. destruct (row_eq_dec (hd [] (m_lists m s)) ones) as [H|H]; [|lia].
    assert (Z : contents (m_lists m s) = []) by (unfold contents; destruct (row_eq_dec (hd [] (m_lists m s)) ones); [reflexivity|contradiction]). rewrite C in Z. rewrite (P s Z). reflexivity. }
  unfold n_det. rewrite !Q. lia.
Qed.
Theorem C47_pspace_grows m m' s : In m iterations -> In m' iterations -> m_i m <= m_i m' -> exists more, contents (m_lists m' s) = (contents (m_lists m s) ++ more)%list.
Proof.
  intros H H' L. rewrite (proj1 (C47_pspace m H) s), (proj1 (C47_pspace m' H') s). exists (flat_map (additions (d_rhf d) s) (map sl (seq (m_i m) (m_i m' - m_i m)))).
  rewrite <- flat_map_app, <- map_app, <- seq_app. do 3 f_equal. lia.
Qed.
Lemma chosen_length sel : List.length (chosen aaa sel) + List.length (chosen aab sel) + List.length (chosen abb sel) + List.length (chosen bbb sel) <= List.length sel.
Proof. induction sel as [|[[s t]|] sel IH]; cbn [chosen List.length]; [lia| |lia]. destruct s; cbn [spincase_eqb]; cbn [List.length]; lia. Qed.
Lemma additions_length rhf sel : List.length (additions rhf aaa sel) + List.length (additions rhf aab sel) + List.length (additions rhf abb sel) + List.length (additions rhf bbb sel) <= (if rhf then 2 else 1) * List.length sel.
Proof. pose proof (chosen_length sel). cbn [additions]. destruct rhf; rewrite ?map_length; lia. Qed.
(** C47, 4: in the percentage scheme, where iteration j selects the number of determinants computed by excitation_count, the P space of iteration i holds
    no more determinants than the difference between the i-th and the first percentage stands for *)
Theorem C47_percentage total l m ns : base = 0 -> ps = Some l -> dets_to_add (d_rhf d) total l = Some ns -> (0 <= total)%Z ->
  (forall j, S j < List.length l -> (nth j l 0 <= nth (S j) l 0)%Q) -> (forall j, S j < List.length l -> Z.of_nat (List.length (sl j)) = trunc (nth j ns 0%Q)) ->
  In m iterations -> (forall j, 1 <= j <= m_i m -> ~ hundred (nth j l 0%Q)) ->
  (inject_Z (Z.of_nat (m_ndet m)) <= inject_Z (total / 100) * (nth (m_i m) l 0 - nth 0 l 0))%Q.
Proof.
  intros B0 PS DA T M SL Hm N. assert (IL : m_i m < List.length l).
  { destruct C47_stops as ((_ & A) & B & _). assert (H : In (m_i m) (map m_i iterations)) by now apply in_map. rewrite B in H. apply in_seq in H. unfold nmacro in A. rewrite PS in A. lia. }
  assert (NS : ns = halve (d_rhf d) (increments total l)) by (destruct l; [discriminate|]; injection DA as <-; reflexivity).
  assert (PSM := partial_sum total (m_i m) l IL N). assert (POS : Forall (fun x => 0 <= x)%Q (increments total l)) by (destruct l; [exfalso; cbn in IL; lia|]; apply (C46_nonnegative total (q :: l) (increments total (q :: l)) T eq_refl M)).
  eapply Qle_trans; [|rewrite <- PSM; apply Qle_refl].
  assert (SZ : m_ndet m <= (if d_rhf d then 2 else 1) * list_sum (map (fun j => List.length (sl j)) (seq 0 (m_i m)))).
  { destruct (C47_pspace m Hm) as (C & ->). rewrite !C, B0. generalize (seq 0 (m_i m)). intros q. cbn [Nat.add]. induction q as [|j q IH]; [cbn; lia|]. cbn [map flat_map list_sum fold_right]. rewrite !app_length. pose proof (additions_length (d_rhf d) (sl j)). unfold list_sum in IH. cbn in *. destruct (d_rhf d); cbn in *; lia. }
  assert (STEP : forall j, S j < List.length l -> (inject_Z (Z.of_nat ((if d_rhf d then 2 else 1) * List.length (sl j))) <= nth j (increments total l) 0)%Q).
  { intros j Hj. assert (PJ : (0 <= nth j (increments total l) 0)%Q) by (eapply Forall_forall; [exact POS|]; apply nth_In; rewrite increments_length; lia).
    rewrite Nat2Z.inj_mul, (SL j Hj), NS. unfold halve. destruct (d_rhf d).
    - rewrite (nth_indep _ 0%Q (inject_Z (trunc (0 / 2)))) by (rewrite map_length, increments_length; lia). rewrite (map_nth (fun x => inject_Z (trunc (x / 2)))). set (x := nth j (increments total l) 0%Q) in *.
      assert (TT : forall z, trunc (inject_Z z) = z). { intros z. unfold trunc. destruct (Qle_bool 0 (inject_Z z)); [apply Qfloor_Z|apply Qceiling_Z]. }
      rewrite TT, inject_Z_mult. change (inject_Z (Z.of_nat 2)) with 2%Q. apply trunc_half. exact PJ.
    - rewrite inject_Z_mult. change (inject_Z (Z.of_nat 1)) with 1%Q. rewrite Qmult_1_l. unfold trunc. apply Qle_bool_iff in PJ as PB. rewrite PB. apply Qfloor_le. }
  eapply Qle_trans; [rewrite <- Zle_Qle; apply inj_le, SZ|]. clear SZ PSM.
  assert (G : forall q i0, i0 + q < List.length l -> (inject_Z (Z.of_nat ((if d_rhf d then 2 else 1) * list_sum (map (fun j => List.length (sl j)) (seq i0 q)))) <= qsum (firstn q (skipn i0 (increments total l))))%Q).
  { induction q as [|q IHq]; intros i0 H0; [cbn; rewrite Nat.mul_0_r; apply Qle_refl|]. cbn [seq map list_sum fold_right].
    assert (SK : skipn i0 (increments total l) = nth i0 (increments total l) 0%Q :: skipn (S i0) (increments total l)).
    { assert (LI : i0 < List.length (increments total l)) by (rewrite increments_length; lia). revert LI. generalize (increments total l). clear. induction i0 as [|i0 IH]; intros [|x l] H; cbn [List.length] in H; try lia; [reflexivity|]. cbn [skipn nth]. rewrite IH by lia. reflexivity. }
    rewrite SK. cbn [firstn qsum]. rewrite Nat.mul_add_distr_l, Nat2Z.inj_add, inject_Z_plus. apply Qplus_le_compat; [apply STEP; lia|]. apply IHq. lia. }
  specialize (G (m_i m) 0 ltac:(lia)). exact G.
Qed.
(** C47, 5: when the run is over the driver is left with the transformed Hamiltonian; the first CC(P) calculation of another run() on the same object,
    with whatever numerics, therefore starts from the transformed one instead of the saved bare one *)
Theorem C47_left_transformed : stopped_because <> Raised -> let h := HBar (if o_two_body o then "ccsd" else "ccsdt_p") (d_ham d) in
  d_ham (a_drv (fst (fst r))) = h \/ d_ham (a_drv (fst (fst r))) = NoVT3 h.
Proof. intros NR. destruct r_ok as [_ _ _ _ _ K _]. destruct (K NR) as (h & E & I). replace (if List.length (snd (fst r)) =? 1 then d_ham d else d_ham d) with (d_ham d) in E by now destruct (_ =? 1). subst h. unfold hbar_of in I. tauto. Qed.
End Statements.
Theorem C47_second_run_refuted y o base epq sel fin a : 0 < a_nmacro a ->
  exists m rest, snd (fst (run y o base epq sel fin a)) = m :: rest /\ m_i m = 0 /\ forall e, In e (m_events m) -> e_step e = SCCP -> e_ham e = d_ham (a_drv a).
Proof.
  intros NZ. unfold run. destruct (a_nmacro a) as [|k] eqn:EN; [lia|]. cbn [loop].
  pose proof (calls_spec (o_two_body o) (a_lists a) (fin 0) (a_drv a)) as K. destruct (calls (a_drv a) _) as [[d1 es1] ok1]. destruct K as (_ & K2 & K3 & _).
  assert (E1 : forall e, In e es1 -> e_step e = SCCP -> e_ham e = d_ham (a_drv a)) by (intros e He S1; destruct (K2 e He) as [_ K]; unfold stage_event in K; rewrite S1 in K; apply K).
  destruct ok1; cbn [negb]; [|eexists _, _; split; [reflexivity|]; split; [reflexivity|exact E1]].
  destruct (K3 eq_refl) as (H1 & F1 & T1 & L1). pose proof (correct_spec o d1 (0 =? S k - 1) (fin 0 3) (d_ham (a_drv a)) F1 T1 L1 H1) as C. rewrite EN. destruct (correct o d1 _ (fin 0 3)) as [[d2 es2] ok2]. destruct C as (_ & C2 & _ & _).
  assert (E2 : forall e, In e (es1 ++ es2)%list -> e_step e = SCCP -> e_ham e = d_ham (a_drv a)) by (intros e He S1; apply in_app_iff in He as [He|He]; [auto|]; destruct (C2 e He); congruence).
  destruct ok2; cbn [negb]; [|eexists _, _; split; [reflexivity|]; split; [reflexivity|exact E2]]. cbn [Nat.ltb Nat.leb andb].
  destruct (0 =? S k - 1); [eexists _, _; split; [reflexivity|]; split; [reflexivity|exact E2]|].
  destruct (add_spinorbital_triples_to_pspace _ _ _ _ _) as [[l' n']|]; [|eexists _, _; split; [reflexivity|]; split; [reflexivity|exact E2]].
  destruct (loop _ _ _ _ _ _ _ _ _) as [[a' ms] out]. eexists _, _. split; [reflexivity|]. split; [reflexivity|exact E2].
Qed.
(** C47, 6: the iteration budget is 11, or the number of percentages, whatever options["maximum_iterations"] is set to *)
Definition with_maximum_iterations (o : options) (n : nat) : options := {| o_two_body := o_two_body o; o_reset := o_reset o; o_tol := o_tol o; o_ndet_max := o_ndet_max o; o_maximum_iterations := n |}.
Theorem C47_maximum_iterations_refuted y o base epq sel fin a n : run y (with_maximum_iterations o n) base epq sel fin a = run y o base epq sel fin a.
Proof.
  unfold run. generalize (a_nmacro a). intros k. generalize 0. intros i. revert i a. induction k as [|k IH]; intros i a; [reflexivity|]. cbn [loop].
  replace (correct (with_maximum_iterations o n)) with (correct o) by reflexivity. cbn [with_maximum_iterations o_two_body o_tol o_ndet_max].
  destruct (calls _ _) as [[d1 es1] ok1]. destruct (negb ok1); [reflexivity|]. destruct (correct _ _ _ _) as [[d2 es2] ok2]. destruct (negb ok2); [reflexivity|].
  destruct (_ && _); [reflexivity|]. destruct (_ && _); [reflexivity|]. destruct (_ =? _); [reflexivity|]. destruct (add_spinorbital_triples_to_pspace _ _ _ _ _) as [[l' n']|]; [|reflexivity].
  replace (reset_driver (with_maximum_iterations o n)) with (reset_driver o) by reflexivity. rewrite IH. reflexivity.
Qed.

(** Three percentages on a closed-shell driver; the energies never settle *)
Definition c47_sl (i : nat) : selection := match i with 0 => [Some (aab, [1; 2; 1; 1; 3; 2]); None] | 1 => [Some (aaa, [1; 2; 3; 1; 2; 3]); Some (aab, [1; 3; 1; 2; 3; 1])] | _ => [] end.
Definition c47_opt : options := {| o_two_body := true; o_reset := false; o_tol := (1 / 10000)%R; o_ndet_max := 1000; o_maximum_iterations := 10 |}.
Example C47_instance : (forall i, well_formed (c47_sl i)) /\ (forall i, never_ones (c47_sl i)) /\
  let '(a, ms, out) := run y0 c47_opt 0 (fun i => INR i) (fun i => rows_of (c47_sl i)) (fun _ _ => true) (new_adapt (new_driver true) (Some [0; 1; 100]%Q)) in
  out = Last /\ map m_ndet ms = [0; 2; 6] /\ d_ham (a_drv a) = HBar "ccsd" Bare /\ map e_ham (m_events (nth 2 ms (mkMacro 0 (fun _ => []) 0 []))) = [Bare; Bare; HBar "ccsd" Bare; HBar "ccsd" Bare].
Proof.
  split; [|split].
  - intros [|[|i]] s t H; cbn in H; [destruct H as [H|[H|[]]]; [|discriminate]|destruct H as [H|[H|[]]]|destruct H]; injection H as <- <-; (split; [reflexivity|]); cbn; intros x Hx; repeat (destruct Hx as [<-|Hx]; [lia|]); contradiction.
  - intros [|[|i]] s H; cbn in H; unfold ones in H; intuition discriminate.
  - assert (NC : forall i, 0 < i -> ~ (Rabs (INR i - INR (i - 1)) < 1 / 10000)%R).
    { intros i Hi. rewrite minus_INR by lia. replace (INR i - (INR i - INR 1))%R with 1%R by (cbn [INR]; ring). rewrite Rabs_R1. Lra.lra. }
    unfold run, new_adapt. cbn [a_nmacro List.length loop]. cbn [a_drv a_lists a_nmacro a_bare a_counts o_two_body c47_opt o_tol o_ndet_max].
    repeat (match goal with |- context [if Rlt_dec ?a ?b then true else false] => destruct (Rlt_dec a b) as [BAD|_]; [exfalso; revert BAD; apply NC; lia|] end || vm_compute). repeat split.
Qed.
Print Assumptions C46_total.
Print Assumptions C46_rhf_halves.
Print Assumptions C47_stops.
Print Assumptions C47_hamiltonians.
Print Assumptions C47_pspace.
Print Assumptions C47_percentage.
