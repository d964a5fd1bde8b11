(** States R exp(T) |ref> with R a sum of strings that remove, attach or move electrons: components of H R exp(T) |ref> as tensor expressions (proof support). *)
From Coq Require Import Reals Arith NArith List Bool Lia Lra QArith Qreals ZArith FunctionalExtensionality.
From Verif Require Import RSum IntegralsModel TensorObjs TensorAlg TensorSpec CcsdReify FockSpec FockCar FockWick FockArrays FockCcSpec FockTerms FockHam FockExp FockLevel FockCheck FockState.
Import ListNotations.
Local Open Scope R_scope.

(** * The lists of terms *)
Definition hek (l : list op) (rts : list term) : list term :=
  let p := pmul [mkTerm 1 [] [] l] (h_terms 6) in flat_map (fun k => pmulb p (pmul (exps k) rts)) [0; 1; 2; 3]%nat.
Definition eek (l : list op) (rts : list term) : list term := flat_map (fun k => pmulb [mkTerm 1 [] [] l] (pmul (exps k) rts)) [0; 1; 2; 3]%nat.

(** * Arrays and terms that use only some of the arrays *)
Fixpoint exids (e : ex) : list nat :=
  match e with
  | EC _ _ => [] | ET k _ => [k] | EAdd a b => exids a ++ exids b | ESub a b => exids a ++ exids b | EOpp a => exids a
  | EMul a b => exids a ++ exids b | EScale _ _ a => exids a | ESum _ _ a => exids a
  end.
Lemma den_ids dim ten ten' e : (forall k, In k (exids e) -> ten k = ten' k) -> forall v, den dim ten e v = den dim ten' e v.
Proof.
  induction e as [n d|k ix|a IHa b IHb|a IHa b IHb|a IHa|a IHa b IHb|n d a IHa|x d a IHa]; intros H v; cbn [den exids] in *; try reflexivity;
    try (now rewrite IHa, IHb by (intros; apply H, in_or_app; tauto)); try (now rewrite IHa by exact H).
  - now rewrite (H k (or_introl eq_refl)).
  - apply sumn_ext. intros i _. now apply IHa.
Qed.
Lemma prodf_ids ten ten' f v : (forall k, In k (map fst f) -> ten k = ten' k) -> prodf ten f v = prodf ten' f v.
Proof. induction f as [|[k ix] f IH]; intros H; cbn [prodf map fst] in *; [reflexivity|]. rewrite (H k) by now left. rewrite IH; [reflexivity|]. intros j Hj. apply H. now right. Qed.
Lemma psem_ids na nb dim ten ten' p v psi D : (forall t k, In t p -> In k (map fst (t_f t)) -> ten k = ten' k) -> psem na nb dim ten p v psi D = psem na nb dim ten' p v psi D.
Proof.
  intros H. unfold psem. apply lsum_ext. intros t Ht. unfold tsem. f_equal. apply ssum_ext. intros w _ _. f_equal. apply prodf_ids. intros k Hk. now apply (H t).
Qed.
Definition low (p : list term) : bool := forallb (fun t => forallb (fun f => Nat.ltb (fst f) 66) (t_f t)) p.
Lemma low_ok p : low p = true -> forall t k, In t p -> In k (map fst (t_f t)) -> (k < 66)%nat.
Proof.
  intros H t k Ht Hk. unfold low in H. rewrite forallb_forall in H. specialize (H t Ht). rewrite forallb_forall in H. apply in_map_iff in Hk as (f & <- & Hf). apply Nat.ltb_lt. now apply H.
Qed.
Lemma h_low : low (h_terms 6) = true. Proof. reflexivity. Qed.
Lemma exps_low k : (k <= 3)%nat -> low (exps k) = true.
Proof. intros H. do 4 (destruct k as [|k]; [vm_compute; reflexivity|]). lia. Qed.
Lemma tenv_app a b k : (k < length a)%nat -> tenv (a ++ b) k = tenv a k.
Proof. intros H. unfold tenv. rewrite app_nth1 by exact H. reflexivity. Qed.

(** * Strings of quasi-creators: they raise the level and commute with excitations *)
Section Q.
Variables (na nb : nat) (dim : nat -> nat).
Hypothesis dim0 : dim 0%nat = na.
Hypothesis dim2 : dim 2%nat = nb.
Notation occs := (map al (seq 0 na) ++ map be (seq 0 nb)).
Lemma occs_al i : In (al i) occs <-> (i < na)%nat.
Proof.
  rewrite in_app_iff, !in_map_iff. split.
  - intros [(x & E & Hx)|(x & E & Hx)]; unfold al, be in E; apply in_seq in Hx; lia.
  - intros Hi. left. exists i. split; [reflexivity|]. apply in_seq. lia.
Qed.
Lemma occs_be i : In (be i) occs <-> (i < nb)%nat.
Proof.
  rewrite in_app_iff, !in_map_iff. split.
  - intros [(x & E & Hx)|(x & E & Hx)]; unfold al, be in E; apply in_seq in Hx; lia.
  - intros Hi. right. exists i. split; [reflexivity|]. apply in_seq. lia.
Qed.
Lemma orb_occ c i : (c < 4)%nat -> (i < dim c)%nat -> (In (orb na nb c i) occs <-> Nat.even c = true).
Proof.
  intros Hc Hi. destruct c as [|[|[|[|c]]]]; cbn [orb Nat.even]; [| | | |lia]; rewrite ?dim0, ?dim2 in *.
  - rewrite occs_al. tauto.
  - rewrite occs_al. split; [lia|discriminate].
  - rewrite occs_be. tauto.
  - rewrite occs_be. split; [lia|discriminate].
Qed.
Lemma cre_exc p X : ~ In p occs -> exc (fun q => In q occs) X -> commute (cre p) X.
Proof.
  intros Hp H. assert (L := cre_linear p).
  induction H as [r s Hr Hs|X Y _ IX _ IY|c X _ IX|n F _ IF|X Y _ IX _ IY]; intros psi; unfold commute in *.
  - rewrite (ann_cre_ne s p) by congruence. rewrite cre_neg. apply ext_state; intros D. apply cre_cre.
  - now rewrite IX, IY.
  - rewrite (lin_scal _ c (X psi) L). now rewrite IX.
  - rewrite (lin_sum _ n (fun i => F i psi) L). apply ext_state; intros D. apply sumn_ext; intros i Hi. now rewrite IF.
  - rewrite (lin_add _ (X psi) (Y psi) L). now rewrite IX, IY.
Qed.
Lemma ann_exc p X : In p occs -> exc (fun q => In q occs) X -> commute (ann p) X.
Proof.
  intros Hp H. assert (L := ann_linear p).
  induction H as [r s Hr Hs|X Y _ IX _ IY|c X _ IX|n F _ IF|X Y _ IX _ IY]; intros psi; unfold commute in *.
  - rewrite (ann_cre_ne p r) by congruence. replace (ann p (ann s psi)) with (fun E => - ann s (ann p psi) E) by (apply ext_state; intros E; rewrite (ann_ann p s); ring).
    rewrite cre_neg. apply ext_state; intros D. ring.
  - now rewrite IX, IY.
  - rewrite (lin_scal _ c (X psi) L). now rewrite IX.
  - rewrite (lin_sum _ n (fun i => F i psi) L). apply ext_state; intros D. apply sumn_ext; intros i Hi. now rewrite IF.
  - rewrite (lin_add _ (X psi) (Y psi) L). now rewrite IX, IY.
Qed.
Definition qcre (l : list op) : bool := forallb (fun o => negb (qann o)) l.
Lemma ap_commute o w X : inr dim w o -> qann o = false -> exc (fun q => In q occs) X -> commute (ap na nb o w) X.
Proof.
  intros (Hc & Hi) Hq HX. assert (B := orb_occ _ _ Hc Hi). unfold ap, qann in *. intros psi. destruct (Nat.even (o_c o)), (o_d o); try discriminate.
  - apply ann_exc; [now apply B|exact HX].
  - apply cre_exc; [|exact HX]. intros G. apply B in G. discriminate.
Qed.
Lemma opsem_commute l w X : Forall (inr dim w) l -> qcre l = true -> exc (fun q => In q occs) X -> commute (opsem na nb l w) X.
Proof.
  intros HF HQ HX psi. induction l as [|o l IH]; [reflexivity|]. assert (F1 := Forall_inv HF). assert (F2 := Forall_inv_tail HF). cbn [qcre forallb] in HQ. apply andb_prop in HQ as (Q1 & Q2). cbn [opsem].
  rewrite IH by assumption. now rewrite (ap_commute o w X) by (assumption || now apply negb_true_iff).
Qed.
Lemma vanish_string l w k psi : Forall (inr dim w) l -> qcre l = true -> vanish occs k psi -> vanish occs (length (filter (fun o => negb (o_d o)) l) + k) (opsem na nb l w psi).
Proof.
  intros HF HQ HV. assert (ND := ref_nodup na nb). induction l as [|o l IH]; [exact HV|]. destruct (Forall_inv HF) as (Hc & Hi). assert (F2 := Forall_inv_tail HF). cbn [qcre forallb] in HQ. apply andb_prop in HQ as (Q1 & Q2).
  cbn [opsem filter]. assert (B := orb_occ _ _ Hc Hi). unfold ap, qann in *. destruct (Nat.even (o_c o)), (o_d o); try discriminate; cbn [negb length].
  - apply vanish_ann_occ; [exact ND|now apply B|]. now apply IH.
  - apply vanish_cre_virt; [intros G; apply B in G; discriminate|]. now apply IH.
Qed.
Variable ten : nat -> list nat -> R.
Lemma lin_ssum X l (f : (nat -> nat) -> state) : linear X -> forall v, X (fun D => ssum dim l (fun w => f w D) v) = fun D => ssum dim l (fun w => X (f w) D) v.
Proof.
  intros L. induction l as [|[x d] l IH]; cbn [ssum]; intros v; [reflexivity|].
  rewrite (lin_sum X (dim d) (fun i D => ssum dim l (fun w => f w D) (upd v x i)) L). apply ext_state; intros D. apply sumn_ext; intros i _. now rewrite IH.
Qed.
Definition qterm (t : term) : bool := okterm [] t && qcre (t_o t).
Lemma qterm_inr t v w : qterm t = true -> (forall y, ~ In y (names (t_l t)) -> w y = v y) -> (forall x d, In (x, d) (t_l t) -> NoDup (names (t_l t)) -> (w x < dim d)%nat) -> Forall (inr dim w) (t_o t).
Proof. intros H W1 W2. apply andb_prop in H as (H & _). apply (okop_inr dim [] t v); auto. intros x d []. Qed.
Lemma tsem_commute t v X : qterm t = true -> exc (fun q => In q occs) X -> commute (tsem na nb dim ten t v) X.
Proof.
  intros HQ HX psi. assert (L := exc_linear _ _ HX). unfold tsem. rewrite (lin_scal X _ _ L). apply ext_state; intros D. f_equal.
  rewrite (lin_ssum X (t_l t) (fun w D => prodf ten (t_f t) w * opsem na nb (t_o t) w psi D) L). apply ssum_ext. intros w W1 W2.
  rewrite (lin_scal X _ _ L). f_equal. rewrite (opsem_commute (t_o t) w X); [reflexivity|now apply (qterm_inr t v)| |exact HX]. now apply andb_prop in HQ.
Qed.
Lemma vanish_ssum k l (f : (nat -> nat) -> state) : forall v, (forall w, (forall y, ~ In y (names l) -> w y = v y) -> (forall x d, In (x, d) l -> NoDup (names l) -> (w x < dim d)%nat) -> vanish occs k (f w)) ->
  vanish occs k (fun D => ssum dim l (fun w => f w D) v).
Proof.
  intros v H D HD. rewrite (ssum_ext dim l _ (fun _ => 0)); [apply ssum_zero|]. intros w W1 W2. now apply H.
Qed.
Lemma vanish_tsem t v r k psi : qterm t = true -> (r <= length (filter (fun o => negb (o_d o)) (t_o t)))%nat -> vanish occs k psi -> vanish occs (r + k) (tsem na nb dim ten t v psi).
Proof.
  intros HQ HR HV. unfold tsem. apply vanish_scal. apply (vanish_ssum (r + k) (t_l t) (fun w D => prodf ten (t_f t) w * opsem na nb (t_o t) w psi D)). intros w W1 W2.
  apply vanish_scal. apply vanish_le with (m := (length (filter (fun o => negb (o_d o)) (t_o t)) + k)%nat); [lia|]. apply vanish_string; [now apply (qterm_inr t v)| |exact HV]. now apply andb_prop in HQ.
Qed.
Lemma psem_linear p v : linear (psem na nb dim ten p v).
Proof.
  intros a f b g. apply ext_state; intros D. unfold psem. induction p as [|t p IH]; cbn [lsum]; [ring|]. rewrite IH, (tsem_linear na nb dim ten t v). ring.
Qed.
Lemma psem_commute p v X : forallb qterm p = true -> exc (fun q => In q occs) X -> commute (psem na nb dim ten p v) X.
Proof.
  intros HQ HX psi. assert (L := exc_linear _ _ HX). induction p as [|t p IH].
  - unfold psem. cbn [lsum]. symmetry. now apply lin_zero.
  - cbn [forallb] in HQ. apply andb_prop in HQ as (Q1 & Q2).
    change (psem na nb dim ten (t :: p) v psi) with (fun D => tsem na nb dim ten t v psi D + psem na nb dim ten p v psi D). rewrite (lin_add X _ _ L).
    rewrite <- (IH Q2), <- (tsem_commute t v X Q1 HX). reflexivity.
Qed.
Lemma vanish_psem p v r k psi : forallb qterm p = true -> forallb (fun t => Nat.leb r (length (filter (fun o => negb (o_d o)) (t_o t)))) p = true ->
  vanish occs k psi -> vanish occs (r + k) (psem na nb dim ten p v psi).
Proof.
  intros HQ HR HV D HD. unfold psem. apply lsum_zero. intros t Ht. rewrite forallb_forall in HQ, HR. apply (vanish_tsem t v r k psi); auto. apply Nat.leb_le. now apply HR.
Qed.
End Q.

(** * Well-formedness of products from intervals of labels *)
Definition withinb (a b : nat) (p : list term) : bool := forallb (fun t => forallb (fun x => Nat.leb a x && Nat.ltb x b) (tvars t)) p.
Lemma withinb_ok a b p : withinb a b p = true -> Forall (within a b) p.
Proof.
  intros H. apply Forall_forall. intros t Ht x Hx. unfold withinb in H. rewrite forallb_forall in H. specialize (H t Ht). rewrite forallb_forall in H. specialize (H x Hx).
  apply andb_prop in H as (H1 & H2). apply Nat.leb_le in H1. apply Nat.ltb_lt in H2. lia.
Qed.
Lemma pmul_okterm ext a b c e p q : (b <= c)%nat -> Forall (within a b) p -> Forall (within c e) q -> forallb (okterm ext) p = true -> forallb (okterm ext) q = true ->
  forallb (okterm ext) (pmul p q) = true.
Proof.
  intros L Wp Wq Hp Hq. rewrite forallb_forall in *. rewrite Forall_forall in *. intros s Hs. apply in_flat_map in Hs as (t & Ht & Hs). apply in_map_iff in Hs as (u & <- & Hu).
  assert (A1 := Wp t Ht). assert (A2 := Wq u Hu). apply okterm_tmul; [now apply Hp|now apply Hq| |].
  - intros x Hx G. apply (within_names a b t x A1) in Hx. apply A2 in G. lia.
  - intros x Hx G. apply (within_names c e u x A2) in Hx. apply A1 in G. lia.
Qed.
Lemma h_within : Forall (within 6 10) (h_terms 6). Proof. apply withinb_ok. vm_compute. reflexivity. Qed.
Lemma exps_within k : (k <= 3)%nat -> Forall (within 10 40) (exps k).
Proof. intros H. do 4 (destruct k as [|k]; [apply withinb_ok; vm_compute; reflexivity|]). lia. Qed.
(** [exts] bound the external labels *)
Definition ext6 (ext : list (nat * nat)) : bool := forallb (fun z => Nat.ltb (fst z) 6) ext.
Lemma okterm_ext ext t a b : ext6 ext = true -> (6 <= a)%nat -> within a b t -> okterm [] t = true -> okterm ext t = true.
Proof.
  intros He La W H. unfold okterm in *. apply andb_prop in H as (H & H3). apply andb_prop in H as (H1 & H2). rewrite H1. cbn [andb]. apply andb_true_intro. split.
  - unfold disjb. apply forallb_forall. intros x Hx. apply negb_true_iff, not_true_iff_false. intros M. apply mem_in in M. unfold names in Hx. apply in_map_iff in Hx as ([y c] & <- & Hy).
    unfold ext6 in He. rewrite forallb_forall in He. specialize (He _ Hy). apply Nat.ltb_lt in He. cbn [fst] in *. apply (within_names a b t y W) in M. lia.
  - apply forallb_forall. intros o Ho. rewrite forallb_forall in H3. specialize (H3 o Ho). unfold okop in *. rewrite app_nil_r in H3. rewrite look_app.
    apply andb_prop in H3 as (H4 & H5). rewrite H4. destruct (look (o_x o) (t_l t)); [exact H5|discriminate].
Qed.
Lemma oktests_ext ext p a b : ext6 ext = true -> (6 <= a)%nat -> Forall (within a b) p -> forallb (okterm []) p = true -> forallb (okterm ext) p = true.
Proof.
  intros He La W H. rewrite forallb_forall in *. rewrite Forall_forall in W. intros t Ht. apply (okterm_ext ext t a b); auto.
Qed.
Lemma h_okterm : forallb (okterm []) (h_terms 6) = true. Proof. vm_compute. reflexivity. Qed.
Lemma exps_okterm k : (k <= 3)%nat -> forallb (okterm []) (exps k) = true.
Proof. intros H. do 4 (destruct k as [|k]; [vm_compute; reflexivity|]). lia. Qed.

Section F.
Variables (d : dims) (I : integrals) (T : amps) (n : nat) (Rs : list (list nat -> R)) (rts : list term) (rmin : nat).
Hypothesis En : (noa d + nua d = n)%nat.
Hypothesis En' : (nob d + nub d = n)%nat.
Notation H := (fock_ints (noa d) (nob d) I).
Notation ten := (tenv (fock_arrays H T ++ Rs)).
Notation ps := (psem (noa d) (nob d) (fdim d) ten).
Notation ref := (reference (noa d) (nob d)).
Notation vac := (pure ref).
Notation occs := (map al (seq 0 (noa d)) ++ map be (seq 0 (nob d))).
Notation bra l v psi := (opsem (noa d) (nob d) l v psi ref).
Notation Ts := (cluster_sd d T).
Definition rtok : bool := forallb qterm rts && withinb 40 60 rts && forallb (fun t => Nat.leb rmin (length (filter (fun o => negb (o_d o)) (t_o t)))) rts.
Hypothesis RT : rtok = true.
Lemma rt_q : forallb qterm rts = true. Proof. unfold rtok in RT. now do 2 (apply andb_prop in RT as (RT & ?)). Qed.
Lemma rt_w : Forall (within 40 60) rts. Proof. apply withinb_ok. unfold rtok in RT. now do 2 (apply andb_prop in RT as (RT & ?)). Qed.
Lemma rt_r : forallb (fun t => Nat.leb rmin (length (filter (fun o => negb (o_d o)) (t_o t)))) rts = true. Proof. unfold rtok in RT. now apply andb_prop in RT. Qed.
Lemma rt_ok0 : forallb (okterm []) rts = true.
Proof. assert (Q := rt_q). rewrite forallb_forall in *. intros t Ht. specialize (Q t Ht). now apply andb_prop in Q. Qed.
Lemma ten_low k : (k < 66)%nat -> ten k = ften H T k. Proof. intros Hk. apply tenv_app. exact Hk. Qed.
Lemma ps_h v psi : ps (h_terms 6) v psi = hamiltonian n I psi.
Proof.
  apply ext_state; intros D. rewrite (psem_ids _ _ _ _ (ften H T)) by (intros; apply ten_low; eapply low_ok; eauto using h_low). now apply h_sem.
Qed.
Lemma ps_exps k v psi : (k <= 3)%nat -> ps (exps k) v psi = dpow Ts k psi.
Proof.
  intros Hk. rewrite <- (exps_ok d I T k v psi). apply ext_state; intros D. apply psem_ids. intros t j Ht Hj. apply ten_low. eapply low_ok; eauto using exps_low.
Qed.
Lemma ps_rt k v : (k <= 3)%nat -> forall psi, ps (pmul (exps k) rts) v psi = dpow Ts k (ps rts v psi).
Proof.
  intros Hk psi. apply ext_state; intros D. rewrite pmul_ok by (apply (apart_within 10 40 40 60); [lia|now apply exps_within|apply rt_w]). now rewrite ps_exps.
Qed.
Lemma prod_ok ext k : ext6 ext = true -> (k <= 3)%nat -> forallb (okterm ext) (pmul (exps k) rts) = true.
Proof.
  intros He Hk. apply (pmul_okterm ext 10 40 40 60); [lia|now apply exps_within|apply rt_w| |].
  - apply (oktests_ext ext _ 10 40); [exact He|lia|now apply exps_within|now apply exps_okterm].
  - apply (oktests_ext ext _ 40 60); [exact He|lia|apply rt_w|apply rt_ok0].
Qed.
Lemma prod_within k : (k <= 3)%nat -> Forall (within 10 60) (pmul (exps k) rts).
Proof. intros Hk. apply (pmul_within 10 40 40 60); try lia; [now apply exps_within|apply rt_w]. Qed.
Definition braok (ext : list (nat * nat)) (l : list op) : bool :=
  ext6 ext && okterm ext (mkTerm 1 [] [] l) && forallb (fun o => Nat.ltb (o_x o) 6) l.
Lemma bra_within l ext : braok ext l = true -> Forall (within 0 6) [mkTerm 1 [] [] l].
Proof.
  intros B. apply andb_prop in B as (_ & B). constructor; [|constructor]. intros x Hx. unfold tvars in Hx. cbn [t_l t_f t_o names fvars map flat_map app] in Hx.
  apply in_map_iff in Hx as (o & <- & Ho). rewrite forallb_forall in B. specialize (B o Ho). apply Nat.ltb_lt in B. lia.
Qed.
(** High powers of T do not reach the reference *)
Lemma power_vanish k v : vanish occs (k + rmin) (power Ts k (ps rts v vac)).
Proof.
  clear En En'. induction k as [|k IH].
  - cbn [power]. replace (0 + rmin)%nat with (rmin + 0)%nat by lia. apply (vanish_psem (noa d) (nob d) (fdim d)); [reflexivity|reflexivity|exact rt_q|exact rt_r|]. intros D HD. lia.
  - rewrite power_S. apply (vanish_exc _ (ref_nodup (noa d) (nob d)) Ts (cluster_exc d T)). exact IH.
Qed.
Lemma high l v k : (length (filter o_d l) < k + rmin)%nat -> bra l v (dpow Ts k (ps rts v vac)) = 0.
Proof.
  intros L. apply (vanish_opsem d n En En' l v 1); [|rewrite (ref_level d); lia].
  apply vanish_le with (m := (k + rmin)%nat); [lia|]. apply vanish_scal. apply power_vanish.
Qed.
Lemma high_h l v k : (length (filter o_d l) + 2 < k + rmin)%nat -> bra l v (hamiltonian n I (dpow Ts k (ps rts v vac))) = 0.
Proof.
  intros L. apply (vanish_opsem d n En En' l v 1); [|rewrite (ref_level d); lia]. apply vanish_hamiltonian; [apply ref_nodup|].
  apply vanish_le with (m := (k + rmin)%nat); [lia|]. apply vanish_scal. apply power_vanish.
Qed.
Lemma expo_split3 X m psi : linear X -> (3 <= m)%nat -> (forall k, (3 < k)%nat -> X (dpow Ts k psi) ref = 0) ->
  X (expo Ts m psi) ref = X (dpow Ts 0 psi) ref + X (dpow Ts 1 psi) ref + X (dpow Ts 2 psi) ref + X (dpow Ts 3 psi) ref.
Proof.
  clear. intros L Hm Hz. unfold expo. change (fun D => sumn (S m) (fun k => / INR (fact k) * power Ts k psi D)) with (fun D => sumn (S m) (fun k => dpow Ts k psi D)).
  rewrite (lin_sum X (S m) (fun k => dpow Ts k psi) L). replace (S m) with (4 + (m - 3))%nat by lia. rewrite sumn_split.
  rewrite (sumn_0 (m - 3)) by (intros i Hi; apply Hz; lia). cbn [sumn]. ring.
Qed.
Lemma expo_R m v : expo Ts m (ps rts v vac) = ps rts v (expo Ts m vac).
Proof.
  clear En En'. apply ext_state; intros D. unfold expo.
  change (fun D => sumn (S m) (fun k => / INR (fact k) * power Ts k vac D)) with (fun D => sumn (S m) (fun k => dpow Ts k vac D)).
  rewrite (lin_sum (ps rts v) (S m) (fun k => dpow Ts k vac) (psem_linear _ _ _ _ rts v)). apply sumn_ext. intros k _.
  rewrite (commute_dpow (ps rts v) Ts k (psem_linear _ _ _ _ rts v)); [reflexivity|].
  apply (psem_commute (noa d) (nob d) (fdim d) eq_refl eq_refl); [exact rt_q|apply cluster_exc].
Qed.
Lemma hek_ok ext l v m : ext_ok (fdim d) ext v -> braok ext l = true -> (length (filter o_d l) <= 1 + rmin)%nat -> (3 <= m)%nat ->
  ps (hek l rts) v vac ref = bra l v (hamiltonian n I (ps rts v (expo Ts m vac))).
Proof.
  intros HE HB HL Hm. assert (B := HB). apply andb_prop in B as (B & _). apply andb_prop in B as (B1 & B2).
  assert (Lb : linear (fun psi => opsem (noa d) (nob d) l v (hamiltonian n I psi))) by (apply comp_linear; [apply bra_linear|apply hamiltonian_linear]).
  rewrite <- expo_R, (expo_split3 _ m _ Lb Hm) by (intros k Hk; apply high_h; lia).
  assert (EK : forall k, (k <= 3)%nat -> ps (pmulb (pmul [mkTerm 1 [] [] l] (h_terms 6)) (pmul (exps k) rts)) v vac ref = bra l v (hamiltonian n I (dpow Ts k (ps rts v vac)))).
  { intros k Hk. rewrite (pmulb_ok (noa d) (nob d) (fdim d) ten eq_refl eq_refl ext).
    - rewrite pmul_ok by (apply (apart_within 0 6 6 10); [lia|now apply (bra_within l ext)|exact h_within]). rewrite (ps_rt k v Hk), ps_h.
      rewrite psem_one. unfold tsem. cbn [t_c t_l t_f t_o ssum prodf]. rewrite Q1. ring.
    - exact HE.
    - apply (pmul_okterm ext 0 6 6 10); [lia|now apply (bra_within l ext)|exact h_within|cbn [forallb]; now rewrite B2|].
      apply (oktests_ext ext _ 6 10); [exact B1|lia|exact h_within|exact h_okterm].
    - now apply prod_ok.
    - apply (apart_within 0 10 10 60); [lia| |now apply prod_within]. apply (pmul_within 0 6 6 10); try lia; [now apply (bra_within l ext)|exact h_within]. }
  unfold hek. cbn [flat_map]. rewrite !psem_app, !EK by lia. change (ps [] v vac ref) with 0. ring.
Qed.
Lemma eek_ok ext l v m : ext_ok (fdim d) ext v -> braok ext l = true -> (length (filter o_d l) <= 3 + rmin)%nat -> (3 <= m)%nat ->
  ps (eek l rts) v vac ref = bra l v (ps rts v (expo Ts m vac)).
Proof.
  intros HE HB HL Hm. assert (B := HB). apply andb_prop in B as (B & _). apply andb_prop in B as (B1 & B2).
  rewrite <- expo_R, (expo_split3 _ m _ (bra_linear d l v) Hm) by (intros k Hk; apply high; lia).
  assert (EK : forall k, (k <= 3)%nat -> ps (pmulb [mkTerm 1 [] [] l] (pmul (exps k) rts)) v vac ref = bra l v (dpow Ts k (ps rts v vac))).
  { intros k Hk. rewrite (pmulb_ok (noa d) (nob d) (fdim d) ten eq_refl eq_refl ext).
    - rewrite (ps_rt k v Hk). rewrite psem_one. unfold tsem. cbn [t_c t_l t_f t_o ssum prodf]. rewrite Q1. ring.
    - exact HE.
    - cbn [forallb]. now rewrite B2.
    - now apply prod_ok.
    - apply (apart_within 0 6 10 60); [lia|now apply (bra_within l ext)|now apply prod_within]. }
  unfold eek. cbn [flat_map]. rewrite !psem_app, !EK by lia. change (ps [] v vac ref) with 0. ring.
Qed.
(** The checker *)
Variable gens : list (nat * (nat * list nat * bool)).
Variable tab : list (list (nat * list nat * bool)).
Hypothesis Htab : tab = symtab gens (66 + length Rs).
Hypothesis Hg : Forall (fun g => okalt ten (fst g) (snd g)) gens.
Lemma sector_ok ext l v m e c : ext_ok (fdim d) ext v -> braok ext l = true -> (length (filter o_d l) <= 1 + rmin)%nat -> (3 <= m)%nat ->
  fock_same tab ext (hek l rts) e = true -> fock_same tab ext (eek l rts) c = true ->
  bra l v (hamiltonian n I (ps rts v (expo Ts m vac))) = den (fdim d) ten e v /\ bra l v (ps rts v (expo Ts m vac)) = den (fdim d) ten c v.
Proof.
  intros HE HB HL Hm K1 K2. split.
  - rewrite <- (hek_ok ext l v m HE HB HL Hm). apply (fock_same_sound _ _ (fdim d) ten 65 gens (66 + length Rs) tab ext); auto.
  - rewrite <- (eek_ok ext l v m HE HB) by lia. apply (fock_same_sound _ _ (fdim d) ten 65 gens (66 + length Rs) tab ext); auto.
Qed.
(** Defects: (H - E - w) R exp(T) |ref> *)
Lemma defect_ok ext l v m e c dE : ext_ok (fdim d) ext v -> braok ext l = true -> (length (filter o_d l) <= 1 + rmin)%nat -> (3 <= m)%nat ->
  fock_same tab ext (hek l rts) e = true -> fock_same tab ext (eek l rts) c = true ->
  bra l v (fun D => hamiltonian n I (ps rts v (expo Ts m vac)) D - dE * ps rts v (expo Ts m vac) D) = den (fdim d) ten e v - dE * den (fdim d) ten c v.
Proof.
  intros HE HB HL Hm K1 K2. destruct (sector_ok ext l v m e c HE HB HL Hm K1 K2) as (A1 & A2).
  rewrite (opsem_ext _ _ l v _ (fun D => 1 * hamiltonian n I (ps rts v (expo Ts m vac)) D + (- dE) * ps rts v (expo Ts m vac) D)) by (intros; ring).
  rewrite opsem_lin, A1, A2. ring.
Qed.
End F.
