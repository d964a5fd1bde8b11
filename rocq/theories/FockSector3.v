(** States R exp(T2) |ref>: components of H R exp(T2) |ref> from the normal-ordered Hamiltonian, as tensor expressions (proof support). *)
From Coq Require Import Reals Arith NArith List Bool Lia Lra QArith Qreals ZArith FunctionalExtensionality.
From Verif Require Import RSum IntegralsModel TensorObjs TensorAlg TensorSpec CcsdModel CcsdUpdate CcsdReify FockSpec FockCar FockWick FockArrays FockCcSpec FockTerms FockHam FockExp FockLevel FockCheck FockState FockSector
  FockFast FockDress FockShift.
Import ListNotations.
Local Open Scope nat_scope.

Definition ftab := Eval vm_compute in symtab fock_gens 66.
Definition hno := Eval vm_compute in match nord (fun k => nth k ftab []) 8 (h_terms 8) with Some x => x | None => [] end.
Definition t2_ops : list (nat -> term) := [fun z => two_term (1 # 4) z 2 1 1 0 0; fun z => two_term 1 z 3 1 3 0 2; fun z => two_term (1 # 4) z 4 3 3 2 2].
Definition exps2 (k : nat) : list term := multi t2_ops 12 k.
Definition hek2 (l : list op) (rts : list term) : list term :=
  let p := pmul [mkTerm 1 [] [] l] hno in flat_map (fun k => pmulb p (pmul (exps2 k) rts)) [0; 1; 2]%nat.
Definition eek2 (l : list op) (rts : list term) : list term := flat_map (fun k => pmulb [mkTerm 1 [] [] l] (pmul (exps2 k) rts)) [0; 1; 2]%nat.
(** Leaving out the terms with a single excitation amplitude *)
Definition isz (e : ex) : bool := match e with EC 0 _ => true | _ => false end.
Fixpoint kill (e : ex) : ex :=
  match e with
  | EC n d => EC n d
  | ET k ix => if Nat.ltb k 2 then EC 0 1 else e
  | EAdd a b => let a := kill a in let b := kill b in if isz a then b else if isz b then a else EAdd a b
  | ESub a b => let a := kill a in let b := kill b in if isz b then a else if isz a then EOpp b else ESub a b
  | EOpp a => let a := kill a in if isz a then EC 0 1 else EOpp a
  | EMul a b => let a := kill a in let b := kill b in if isz a then EC 0 1 else if isz b then EC 0 1 else EMul a b
  | EScale n d a => let a := kill a in if isz a then EC 0 1 else EScale n d a
  | ESum x d a => let a := kill a in if isz a then EC 0 1 else ESum x d a
  end.
Local Open Scope R_scope.
Lemma isz_ok dim ten e v : isz e = true -> den dim ten e v = 0.
Proof. destruct e as [[|p|p] d| | | | | | |]; try discriminate. intros _. cbn [den]. unfold IZR, Rdiv. ring. Qed.
Lemma den_zero dim ten v : den dim ten (EC 0 1) v = 0. Proof. now apply isz_ok. Qed.
Lemma kill_ok dim ten e : (forall k ix, (k < 2)%nat -> ten k ix = 0) -> forall v, den dim ten (kill e) v = den dim ten e v.
Proof.
  intros Z. induction e as [n d|k ix|a IHa b IHb|a IHa b IHb|a IHa|a IHa b IHb|n d a IHa|x d a IHa]; intros v; cbn [kill]; cbv zeta.
  - reflexivity.
  - destruct (Nat.ltb_spec k 2) as [L|L]; [|reflexivity]. rewrite den_zero. cbn [den]. now rewrite Z.
  - destruct (isz (kill a)) eqn:A; [|destruct (isz (kill b)) eqn:B]; cbn [den]; rewrite <- ?IHa, <- ?IHb.
    + rewrite (isz_ok dim ten _ v A). ring.
    + rewrite (isz_ok dim ten _ v B). ring.
    + reflexivity.
  - destruct (isz (kill b)) eqn:B; [|destruct (isz (kill a)) eqn:A]; cbn [den]; rewrite <- ?IHa, <- ?IHb.
    + rewrite (isz_ok dim ten _ v B). ring.
    + rewrite (isz_ok dim ten _ v A). ring.
    + reflexivity.
  - destruct (isz (kill a)) eqn:A; [rewrite den_zero|]; cbn [den]; rewrite <- ?IHa; [rewrite (isz_ok dim ten _ v A)|]; ring.
  - destruct (isz (kill a)) eqn:A; [rewrite den_zero|destruct (isz (kill b)) eqn:B; [rewrite den_zero|]]; cbn [den]; rewrite <- ?IHa, <- ?IHb; [rewrite (isz_ok dim ten _ v A)|rewrite (isz_ok dim ten _ v B)|]; ring.
  - destruct (isz (kill a)) eqn:A; [rewrite den_zero|]; cbn [den]; rewrite <- ?IHa; [rewrite (isz_ok dim ten _ v A)|]; ring.
  - destruct (isz (kill a)) eqn:A; [rewrite den_zero|]; cbn [den].
    + symmetry. apply sumn_0; intros i _. rewrite <- IHa. now apply isz_ok.
    + apply sumn_ext; intros i _. apply IHa.
Qed.

Lemma ftab_eq : ftab = symtab fock_gens 66. Proof. vm_compute. reflexivity. Qed.
Lemma hno_eq : nord (fun k => nth k ftab []) 8 (h_terms 8) = Some hno. Proof. vm_compute. reflexivity. Qed.
Lemma h8_kept : Forall (kept []) (h_terms 8). Proof. assert (B : forallb keptb (h_terms 8) = true) by (vm_compute; reflexivity). rewrite forallb_forall in B. apply Forall_forall. intros t Ht. now apply keptb_ok, B. Qed.
Lemma h8_low : low (h_terms 8) = true. Proof. reflexivity. Qed.
Lemma hno_within : Forall (within 8 12) hno. Proof. apply withinb_ok. vm_compute. reflexivity. Qed.
Lemma hno_okterm : forallb (okterm []) hno = true. Proof. vm_compute. reflexivity. Qed.
Lemma exps2_low k : (k <= 2)%nat -> low (exps2 k) = true. Proof. intros H. do 3 (destruct k as [|k]; [vm_compute; reflexivity|]). lia. Qed.
Lemma exps2_within k : (k <= 2)%nat -> Forall (within 12 40) (exps2 k). Proof. intros H. do 3 (destruct k as [|k]; [apply withinb_ok; vm_compute; reflexivity|]). lia. Qed.
Lemma exps2_okterm k : (k <= 2)%nat -> forallb (okterm []) (exps2 k) = true. Proof. intros H. do 3 (destruct k as [|k]; [vm_compute; reflexivity|]). lia. Qed.

Section F.
Variables (d : dims) (I : integrals) (T0 : amps) (n : nat) (Rs : list (list nat -> R)) (rts : list term) (rmin : nat).
Hypothesis En : (noa d + nua d = n)%nat.
Hypothesis En' : (nob d + nub d = n)%nat.
Notation T := (bare T0).
Notation H := (fock_ints (noa d) (nob d) I).
Notation ten := (tenv (fock_arrays H T ++ Rs)).
Notation ps := (psem (noa d) (nob d) (fdim d) ten).
Notation ref := (reference (noa d) (nob d)).
Notation vac := (pure ref).
Notation occs := (map al (seq 0 (noa d)) ++ map be (seq 0 (nob d))).
Notation bra l v psi := (opsem (noa d) (nob d) l v psi ref).
Notation Ts := (cluster_sd d T).
Hypothesis RT : rtok rts rmin = true.
Variable own : list (nat * (nat * list nat * bool)).
Hypothesis Hg : Forall (fun g => okalt ten (fst g) (snd g)) (fock_gens ++ own).
Lemma ten_zero k ix : (k < 2)%nat -> ten k ix = 0.
Proof. intros Hk. destruct k as [|[|k]]; [| |lia]; unfold tenv; cbn [nth fock_arrays app ap2]; (destruct ix as [|? [|? [|]]]; reflexivity). Qed.
Lemma ps_hno v psi : ps hno v psi = hamiltonian n I psi.
Proof.
  clear RT. assert (HO : forall k x, In x (nth k ftab []) -> okalt ten k x) by (rewrite ftab_eq; apply symtab_ok; apply Forall_app in Hg; apply Hg).
  apply ext_state; intros D.
  rewrite (nord_ok (noa d) (nob d) (fdim d) ten eq_refl eq_refl (fun k => nth k ftab [])
    (fun k k' p s Hin => proj1 (HO k (k', p, s) Hin)) (fun k k' p s Hin => proj2 (HO k (k', p, s) Hin)) v psi D 8 (h_terms 8) hno h8_kept hno_eq).
  rewrite (psem_ids _ _ _ _ (ften H T)) by (intros; apply ten_low; eapply low_ok; eauto using h8_low). now apply h_sem.
Qed.
Lemma t2_stand : Forall2 (stands (noa d) (nob d) (fdim d) (ften H T)) t2_ops [X_aa d T; X_ab d T; X_bb d T].
Proof.
  clear. assert (O := ops_stand d I T). unfold t_ops in O. inversion O as [|? ? ? ? _ O1]; subst. inversion O1 as [|? ? ? ? _ O2]; subst. exact O2.
Qed.
Lemma t2_total : Ts = total [X_aa d T; X_ab d T; X_bb d T].
Proof. clear. rewrite bare_twos. reflexivity. Qed.
Lemma ps_exps2 k v psi : (k <= 2)%nat -> ps (exps2 k) v psi = dpow Ts k psi.
Proof.
  intros Hk. clear En En'. apply ext_state; intros D. rewrite (psem_ids _ _ _ ten (ften H T)) by (intros t j Ht Hj; apply ten_low; eapply low_ok; eauto using exps2_low).
  rewrite t2_total. unfold exps2. apply multi_ok; [exact t2_stand|discriminate|].
  assert (O := ops_exc d T). inversion O as [|? ? _ P1]; inversion P1 as [|? ? _ P2]; subst; clear O P1. inversion P2 as [|? ? O3 P3]; inversion P3 as [|? ? O4 P4]; inversion P4 as [|? ? O5 P5]; subst.
  repeat constructor; apply exc_commute with (occ := fun q => In q occs); assumption.
Qed.
Lemma ps_rt2 k v : (k <= 2)%nat -> forall psi, ps (pmul (exps2 k) rts) v psi = dpow Ts k (ps rts v psi).
Proof.
  intros Hk psi. apply ext_state; intros D. rewrite pmul_ok by (apply (apart_within 12 40 40 60); [lia|now apply exps2_within|eapply rt_w; eassumption]). now rewrite ps_exps2.
Qed.
Lemma prod2_ok ext k : ext6 ext = true -> (k <= 2)%nat -> forallb (okterm ext) (pmul (exps2 k) rts) = true.
Proof.
  intros He Hk. apply (pmul_okterm ext 12 40 40 60); [lia|now apply exps2_within|eapply rt_w; eassumption| |].
  - apply (oktests_ext ext _ 12 40); [exact He|lia|now apply exps2_within|now apply exps2_okterm].
  - apply (oktests_ext ext _ 40 60); [exact He|lia|eapply rt_w; eassumption|eapply rt_ok0; eassumption].
Qed.
Lemma prod2_within k : (k <= 2)%nat -> Forall (within 12 60) (pmul (exps2 k) rts).
Proof. intros Hk. apply (pmul_within 12 40 40 60); try lia; [now apply exps2_within|eapply rt_w; eassumption]. Qed.
(** Double excitations raise the level by two *)
Lemma vanish_double nu1 nu2 no1 no2 t s1 s2 k psi : (forall i, (i < no1)%nat -> In (s1 i) occs) -> (forall a, ~ In (s1 (no1 + a)%nat) occs) ->
  (forall i, (i < no2)%nat -> In (s2 i) occs) -> (forall a, ~ In (s2 (no2 + a)%nat) occs) -> vanish occs k psi -> vanish occs (2 + k) (double_op nu1 nu2 no1 no2 t s1 s2 psi).
Proof.
  intros H1 H2 H3 H4 V D HD. assert (ND := ref_nodup (noa d) (nob d)). unfold double_op. apply sumn_0; intros a Ha. apply sumn_0; intros b Hb. apply sumn_0; intros i Hi. apply sumn_0; intros j Hj.
  apply Rmult_eq_0_compat_l. revert D HD. apply vanish_cre_virt; [apply H2|]. apply vanish_cre_virt; [apply H4|]. apply vanish_ann_occ; [exact ND|now apply H3|]. apply vanish_ann_occ; [exact ND|now apply H1|]. exact V.
Qed.
Lemma vanish_T k psi : vanish occs k psi -> vanish occs (2 + k) (Ts psi).
Proof.
  clear En En' RT Hg. intros V.
  assert (A1 : forall i, (i < noa d)%nat -> In (al i) occs) by (intros; now apply occ_al).
  assert (A2 : forall a, ~ In (al (noa d + a)%nat) occs) by (intros a C; apply occ_al in C; lia).
  assert (B1 : forall i, (i < nob d)%nat -> In (be i) occs) by (intros; now apply occ_be).
  assert (B2 : forall a, ~ In (be (nob d + a)%nat) occs) by (intros a C; apply occ_be in C; lia).
  rewrite bare_twos. intros D HD. unfold twos, X_aa, X_ab, X_bb.
  rewrite (vanish_double (nua d) (nua d) (noa d) (noa d) (x_aa T0) al al k psi), (vanish_double (nua d) (nub d) (noa d) (nob d) (x_ab T0) al be k psi), (vanish_double (nub d) (nub d) (nob d) (nob d) (x_bb T0) be be k psi) by assumption. ring.
Qed.
Lemma power_vanish2 k v : vanish occs (2 * k + rmin) (power Ts k (ps rts v vac)).
Proof.
  clear En En' Hg. induction k as [|k IH].
  - cbn [power]. replace (2 * 0 + rmin)%nat with (rmin + 0)%nat by lia. apply (vanish_psem (noa d) (nob d) (fdim d)); [reflexivity|reflexivity|eapply rt_q; eassumption|eapply rt_r; eassumption|]. intros D HD. lia.
  - rewrite power_S. replace (2 * S k + rmin)%nat with (2 + (2 * k + rmin))%nat by lia. apply vanish_T. exact IH.
Qed.
Lemma high2 l v k : (length (filter o_d l) < 2 * k + rmin)%nat -> bra l v (dpow Ts k (ps rts v vac)) = 0.
Proof.
  intros L. apply (vanish_opsem d n En En' l v 1); [|rewrite (ref_level d); lia].
  apply vanish_le with (m := (2 * k + rmin)%nat); [lia|]. apply vanish_scal. apply power_vanish2.
Qed.
Lemma high2_h l v k : (length (filter o_d l) + 2 < 2 * k + rmin)%nat -> bra l v (hamiltonian n I (dpow Ts k (ps rts v vac))) = 0.
Proof.
  intros L. apply (vanish_opsem d n En En' l v 1); [|rewrite (ref_level d); lia]. apply vanish_hamiltonian; [apply ref_nodup|].
  apply vanish_le with (m := (2 * k + rmin)%nat); [lia|]. apply vanish_scal. apply power_vanish2.
Qed.
Lemma expo_split2 X m psi : linear X -> (2 <= m)%nat -> (forall k, (2 < k)%nat -> X (dpow Ts k psi) ref = 0) ->
  X (expo Ts m psi) ref = X (dpow Ts 0 psi) ref + X (dpow Ts 1 psi) ref + X (dpow Ts 2 psi) ref.
Proof.
  clear. intros L Hm Hz. unfold expo. change (fun D => sumn (S m) (fun k => / INR (fact k) * power Ts k psi D)) with (fun D => sumn (S m) (fun k => dpow Ts k psi D)).
  rewrite (lin_sum X (S m) (fun k => dpow Ts k psi) L). replace (S m) with (3 + (m - 2))%nat by lia. rewrite sumn_split.
  rewrite (sumn_0 (m - 2)) by (intros i Hi; apply Hz; lia). cbn [sumn]. ring.
Qed.
Lemma expo_R2 m v : expo Ts m (ps rts v vac) = ps rts v (expo Ts m vac).
Proof. eapply expo_R. eassumption. Qed.
Lemma hek2_ok ext l v m : ext_ok (fdim d) ext v -> braok ext l = true -> (length (filter o_d l) <= 3 + rmin)%nat -> (2 <= m)%nat ->
  ps (hek2 l rts) v vac ref = bra l v (hamiltonian n I (ps rts v (expo Ts m vac))).
Proof.
  intros HE HB HL Hm. assert (B := HB). apply andb_prop in B as (B & _). apply andb_prop in B as (B1 & B2).
  assert (Lb : linear (fun psi => opsem (noa d) (nob d) l v (hamiltonian n I psi))) by (apply comp_linear; [apply bra_linear|apply hamiltonian_linear]).
  rewrite <- expo_R2, (expo_split2 _ m _ Lb Hm) by (intros k Hk; apply high2_h; lia).
  assert (EK : forall k, (k <= 2)%nat -> ps (pmulb (pmul [mkTerm 1 [] [] l] hno) (pmul (exps2 k) rts)) v vac ref = bra l v (hamiltonian n I (dpow Ts k (ps rts v vac)))).
  { intros k Hk. rewrite (pmulb_ok (noa d) (nob d) (fdim d) ten eq_refl eq_refl ext).
    - rewrite pmul_ok by (apply (apart_within 0 6 8 12); [lia|eapply bra_within; eassumption|exact hno_within]). rewrite (ps_rt2 k v Hk), ps_hno.
      rewrite psem_one. unfold tsem. cbn [t_c t_l t_f t_o ssum prodf]. rewrite Q1. ring.
    - exact HE.
    - apply (pmul_okterm ext 0 6 8 12); [lia|eapply bra_within; eassumption|exact hno_within|cbn [forallb]; now rewrite B2|].
      apply (oktests_ext ext _ 8 12); [exact B1|lia|exact hno_within|exact hno_okterm].
    - now apply prod2_ok.
    - apply (apart_within 0 12 12 60); [lia| |now apply prod2_within]. apply (pmul_within 0 6 8 12); try lia; [eapply bra_within; eassumption|exact hno_within]. }
  unfold hek2. cbn [flat_map]. rewrite !psem_app, !EK by lia. change (ps [] v vac ref) with 0. ring.
Qed.
Lemma eek2_ok ext l v m : ext_ok (fdim d) ext v -> braok ext l = true -> (length (filter o_d l) <= 5 + rmin)%nat -> (2 <= m)%nat ->
  ps (eek2 l rts) v vac ref = bra l v (ps rts v (expo Ts m vac)).
Proof.
  intros HE HB HL Hm. assert (B := HB). apply andb_prop in B as (B & _). apply andb_prop in B as (B1 & B2).
  rewrite <- expo_R2, (expo_split2 _ m _ (bra_linear d l v) Hm) by (intros k Hk; apply high2; lia).
  assert (EK : forall k, (k <= 2)%nat -> ps (pmulb [mkTerm 1 [] [] l] (pmul (exps2 k) rts)) v vac ref = bra l v (dpow Ts k (ps rts v vac))).
  { intros k Hk. rewrite (pmulb_ok (noa d) (nob d) (fdim d) ten eq_refl eq_refl ext).
    - rewrite (ps_rt2 k v Hk). rewrite psem_one. unfold tsem. cbn [t_c t_l t_f t_o ssum prodf]. rewrite Q1. ring.
    - exact HE.
    - cbn [forallb]. now rewrite B2.
    - now apply prod2_ok.
    - apply (apart_within 0 6 12 60); [lia|eapply bra_within; eassumption|now apply prod2_within]. }
  unfold eek2. cbn [flat_map]. rewrite !psem_app, !EK by lia. change (ps [] v vac ref) with 0. ring.
Qed.
(** The checker *)
Variable tab : list (list (nat * list nat * bool)).
Hypothesis Htab : tab = symtab (fock_gens ++ own) (66 + length Rs).
(** Defects: (H - E - w) R exp(T2) |ref> *)
Lemma defect2_ok ext l v m e c dE : ext_ok (fdim d) ext v -> braok ext l = true -> (length (filter o_d l) <= 3 + rmin)%nat -> (2 <= m)%nat ->
  fock_fast tab ext (hek2 l rts) (kill e) = true -> fock_fast tab ext (eek2 l rts) c = true ->
  bra l v (fun D => hamiltonian n I (ps rts v (expo Ts m vac)) D - dE * ps rts v (expo Ts m vac) D) = den (fdim d) ten e v - dE * den (fdim d) ten c v.
Proof.
  intros HE HB HL Hm K1 K2.
  assert (A1 : bra l v (hamiltonian n I (ps rts v (expo Ts m vac))) = den (fdim d) ten e v).
  { rewrite <- (hek2_ok ext l v m HE HB HL Hm). rewrite <- (kill_ok (fdim d) ten e ten_zero). apply (fock_fast_sound _ _ (fdim d) ten (fock_gens ++ own) (66 + length Rs) tab ext); auto. }
  assert (A2 : bra l v (ps rts v (expo Ts m vac)) = den (fdim d) ten c v).
  { rewrite <- (eek2_ok ext l v m HE HB) by lia. apply (fock_fast_sound _ _ (fdim d) ten (fock_gens ++ own) (66 + length Rs) tab ext); auto. }
  rewrite (opsem_ext _ _ l v _ (fun D => 1 * hamiltonian n I (ps rts v (expo Ts m vac)) D + (- dE) * ps rts v (expo Ts m vac) D)) by (intros; ring).
  rewrite opsem_lin, A1, A2. ring.
Qed.
End F.
