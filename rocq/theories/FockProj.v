(** Projections of H exp(T) on the reference and the excited determinants (proof support). *)
From Coq Require Import Reals Arith NArith List Bool Lia Lra QArith Qreals ZArith FunctionalExtensionality.
From Verif Require Import RSum IntegralsModel TensorObjs TensorAlg TensorSpec CcsdModel CcsdUpdate CcsdReify CcsdProps FockSpec FockCar FockWick FockArrays FockCcSpec FockTerms FockHam FockExp FockLevel FockCheck FockState FockNear.
Import ListNotations.
Local Open Scope R_scope.

Lemma fock_ints_antisym na nb I : exchangeable I -> antisym_ints (fock_ints na nb I).
Proof.
  intros (Ha & Hb). constructor; intros p q r t; cbn -[Nat.add]; unfold anti_aa, anti_bb;
    match goal with |- ?a - ?b = - (?c - ?e) => first [ lra
      | rewrite (Ha _ _ _ _); match goal with |- ?a' - ?b' = _ => replace b' with c by (symmetry; apply Ha); lra end
      | rewrite (Hb _ _ _ _); match goal with |- ?a' - ?b' = _ => replace b' with c by (symmetry; apply Hb); lra end ] end.
Qed.

Lemma hk_a : heok ext_a bra_a = true. Proof. vm_compute. reflexivity. Qed.
Lemma hk_b : heok ext_b bra_b = true. Proof. vm_compute. reflexivity. Qed.
Lemma hk_aa : heok ext_aa bra_aa = true. Proof. vm_compute. reflexivity. Qed.
Lemma hk_ab : heok ext_ab bra_ab = true. Proof. vm_compute. reflexivity. Qed.
Lemma hk_bb : heok ext_bb bra_bb = true. Proof. vm_compute. reflexivity. Qed.
Lemma hk_0 : heok [] [] = true. Proof. vm_compute. reflexivity. Qed.
Section P.
Variables (d : dims) (I : integrals) (T : amps) (n m : nat).
Hypothesis En : (noa d + nua d = n)%nat.
Hypothesis En' : (nob d + nub d = n)%nat.
Hypothesis HI : exchangeable I.
Hypothesis HT : antisym_amps T.
Hypothesis Hm : (4 <= m)%nat.
Notation H := (fock_ints (noa d) (nob d) I).
Notation ref := (reference (noa d) (nob d)).
Notation psi := (expo (cluster_sd d T) m (pure ref)).
Notation E := (scf_energy (noa d) (nob d) I + cc_energy d H T).
Notation dn e v := (den (fdim d) (ften H T) e v).
Notation al1 := (along1 ref (noa d) al).
Notation be1 := (along1 ref (nob d) be).
Notation aa2 := (along2 ref (noa d) (noa d) al al).
Notation ab2 := (along2 ref (noa d) (nob d) al be).
Notation bb2 := (along2 ref (nob d) (nob d) be be).
Let HH : antisym_ints H := fock_ints_antisym _ _ _ HI.

Lemma rt_ok e v : dn (rt e) v = den (fdim d) (tenv (jac_arrays d H T T)) e v.
Proof. apply retag_ok. intros k l. apply to_fock_ok. Qed.
Lemma he ext l v X : ext_ok (fdim d) ext v -> heok ext l = true -> (length (filter o_d l) <= 2)%nat -> fsame ext (heexp l) X = true ->
  opsem (noa d) (nob d) l v (hamiltonian n I psi) ref = dn X v.
Proof. intros HE HO HL HF. rewrite <- (heexp_ok d I T n En En' ext l v m HE HO HL Hm). now apply fsame_ok with (ext := ext). Qed.
Lemma ee ext l v X : ext_ok (fdim d) ext v -> heok ext l = true -> (length (filter o_d l) <= 2)%nat -> fsame ext (eexp l) X = true ->
  opsem (noa d) (nob d) l v psi ref = dn X v.
Proof. intros HE HO HL HF. rewrite <- (eexp_ok d I T n En En' ext l v m HE HO HL Hm). now apply fsame_ok with (ext := ext). Qed.

Lemma en_hf v : dn f_hf v = scf_energy (noa d) (nob d) I.
Proof.
  unfold f_hf, scf_energy. cbn [den upd Nat.eqb map]. unfold upd. cbn [Nat.eqb]. unfold denv, tenv. cbn [nth fock_arrays ap2 ap4].
  cbn [fock_ints i_a_oo i_b_oo i_aa_oooo i_ab_oooo i_bb_oooo]. unfold fock_a, fock_b, anti_aa, anti_bb.
  rewrite !sumn_plus. rewrite (sumn_swap (nob d) (noa d)). lra.
Qed.
Lemma ext1 (x : nat) c : (x < fdim d c)%nat -> forall k e, In (k, e) [(0%nat, c)] -> (venv [x] k < fdim d e)%nat.
Proof. intros Hx k e [[= <- <-]|[]]. exact Hx. Qed.
Lemma ext2 x y c e : (x < fdim d c)%nat -> (y < fdim d e)%nat -> ext_ok (fdim d) [(0%nat, c); (1%nat, e)] (venv [x; y]).
Proof. intros Hx Hy k z [[= <- <-]|[[= <- <-]|[]]]; assumption. Qed.
Lemma ext4 x y z w c e f g : (x < fdim d c)%nat -> (y < fdim d e)%nat -> (z < fdim d f)%nat -> (w < fdim d g)%nat ->
  ext_ok (fdim d) [(0%nat, c); (1%nat, e); (2%nat, f); (3%nat, g)] (venv [x; y; z; w]).
Proof. intros Hx Hy Hz Hw k u [[= <- <-]|[[= <- <-]|[[= <- <-]|[[= <- <-]|[]]]]]; assumption. Qed.
Lemma ext0 v : ext_ok (fdim d) [] v. Proof. intros k u []. Qed.
Lemma en_den v : dn f_en v = E.
Proof. unfold f_en. change (dn (EAdd f_hf (rt (r_en_Ecorr 10))) v) with (dn f_hf v + dn (rt (r_en_Ecorr 10)) v). rewrite en_hf, rt_ok. reflexivity. Qed.
Lemma energy : hamiltonian n I psi ref = E.
Proof. rewrite <- (en_den (venv [])). apply (he [] []); [apply ext0|exact hk_0|cbn; lia|exact k_en]. Qed.
Lemma norm : psi ref = 1.
Proof. transitivity (dn (EC 1 1) (venv [])); [|cbn; lra]. apply (ee [] []); [apply ext0|exact hk_0|cbn; lia|exact k_en0]. Qed.

Notation R0 := (ccsd_resid d H T).
Notation HP := (hamiltonian n I psi).
Ltac side := first [now apply ext2|now apply ext4|cbn; lia].
Lemma c1a a i : (a < nua d)%nat -> (i < noa d)%nat -> al1 psi a i = x_a T a i.
Proof. intros. change (al1 psi a i) with (opsem (noa d) (nob d) bra_a (venv [a; i]) psi ref). rewrite (ee ext_a bra_a (venv [a; i]) (ta 0 1)); [reflexivity|side|exact hk_a|side|exact k_a0]. Qed.
Lemma h1a a i : (a < nua d)%nat -> (i < noa d)%nat -> al1 HP a i = E * x_a T a i + x_a R0 a i.
Proof.
  intros. change (al1 HP a i) with (opsem (noa d) (nob d) bra_a (venv [a; i]) HP ref). rewrite (he ext_a bra_a (venv [a; i]) d_a); [|side|exact hk_a|side|exact k_a].
  change (dn d_a (venv [a; i])) with (dn f_en (venv [a; i]) * x_a T a i + dn (rt (r_ccsd_res_a 10 0 1)) (venv [a; i])). rewrite en_den, rt_ok. reflexivity.
Qed.
Lemma c1b a i : (a < nub d)%nat -> (i < nob d)%nat -> be1 psi a i = x_b T a i.
Proof. intros. change (be1 psi a i) with (opsem (noa d) (nob d) bra_b (venv [a; i]) psi ref). rewrite (ee ext_b bra_b (venv [a; i]) (tb 0 1)); [reflexivity|side|exact hk_b|side|exact k_b0]. Qed.
Lemma h1b a i : (a < nub d)%nat -> (i < nob d)%nat -> be1 HP a i = E * x_b T a i + x_b R0 a i.
Proof.
  intros. change (be1 HP a i) with (opsem (noa d) (nob d) bra_b (venv [a; i]) HP ref). rewrite (he ext_b bra_b (venv [a; i]) d_b); [|side|exact hk_b|side|exact k_b].
  change (dn d_b (venv [a; i])) with (dn f_en (venv [a; i]) * x_b T a i + dn (rt (r_ccsd_res_b 10 0 1)) (venv [a; i])). rewrite en_den, rt_ok. reflexivity.
Qed.
Lemma c2aa a b i j : (a < nua d)%nat -> (b < nua d)%nat -> (i < noa d)%nat -> (j < noa d)%nat ->
  aa2 psi a b i j = x_aa T a b i j + x_a T a i * x_a T b j - x_a T b i * x_a T a j.
Proof. intros. change (aa2 psi a b i j) with (opsem (noa d) (nob d) bra_aa (venv [a; b; i; j]) psi ref). rewrite (ee ext_aa bra_aa (venv [a; b; i; j]) c_aa); [reflexivity|side|exact hk_aa|side|exact k_aa0]. Qed.
Lemma h2aa a b i j : (a < nua d)%nat -> (b < nua d)%nat -> (i < noa d)%nat -> (j < noa d)%nat ->
  aa2 HP a b i j = E * (x_aa T a b i j + x_a T a i * x_a T b j - x_a T b i * x_a T a j) + (x_aa R0 a b i j + ((x_a R0 a i * x_a T b j + x_a T a i * x_a R0 b j) - (x_a R0 b i * x_a T a j + x_a T b i * x_a R0 a j))).
Proof.
  intros. change (aa2 HP a b i j) with (opsem (noa d) (nob d) bra_aa (venv [a; b; i; j]) HP ref). rewrite (he ext_aa bra_aa (venv [a; b; i; j]) d_aa); [|side|exact hk_aa|side|exact k_aa].
  change (dn d_aa (venv [a; b; i; j])) with (dn f_en (venv [a; b; i; j]) * (x_aa T a b i j + x_a T a i * x_a T b j - x_a T b i * x_a T a j) + (dn (rt (r_resid_aa 10 0 1 2 3)) (venv [a; b; i; j]) + ((dn (rt (r_ccsd_res_a 10 0 2)) (venv [a; b; i; j]) * x_a T b j + x_a T a i * dn (rt (r_ccsd_res_a 10 1 3)) (venv [a; b; i; j])) - (dn (rt (r_ccsd_res_a 10 1 2)) (venv [a; b; i; j]) * x_a T a j + x_a T b i * dn (rt (r_ccsd_res_a 10 0 3)) (venv [a; b; i; j]))))). rewrite en_den, !rt_ok. reflexivity.
Qed.
Lemma c2ab a b i j : (a < nua d)%nat -> (b < nub d)%nat -> (i < noa d)%nat -> (j < nob d)%nat ->
  ab2 psi a b i j = x_ab T a b i j + x_a T a i * x_b T b j.
Proof. intros. change (ab2 psi a b i j) with (opsem (noa d) (nob d) bra_ab (venv [a; b; i; j]) psi ref). rewrite (ee ext_ab bra_ab (venv [a; b; i; j]) c_ab); [reflexivity|side|exact hk_ab|side|exact k_ab0]. Qed.
Lemma h2ab a b i j : (a < nua d)%nat -> (b < nub d)%nat -> (i < noa d)%nat -> (j < nob d)%nat ->
  ab2 HP a b i j = E * (x_ab T a b i j + x_a T a i * x_b T b j) + (x_ab R0 a b i j + (x_a R0 a i * x_b T b j + x_a T a i * x_b R0 b j)).
Proof.
  intros. change (ab2 HP a b i j) with (opsem (noa d) (nob d) bra_ab (venv [a; b; i; j]) HP ref). rewrite (he ext_ab bra_ab (venv [a; b; i; j]) d_ab); [|side|exact hk_ab|side|exact k_ab].
  change (dn d_ab (venv [a; b; i; j])) with (dn f_en (venv [a; b; i; j]) * (x_ab T a b i j + x_a T a i * x_b T b j) + (dn (rt (r_ccsd_res_ab 10 0 1 2 3)) (venv [a; b; i; j]) + (dn (rt (r_ccsd_res_a 10 0 2)) (venv [a; b; i; j]) * x_b T b j + x_a T a i * dn (rt (r_ccsd_res_b 10 1 3)) (venv [a; b; i; j])))). rewrite en_den, !rt_ok. reflexivity.
Qed.
Lemma c2bb a b i j : (a < nub d)%nat -> (b < nub d)%nat -> (i < nob d)%nat -> (j < nob d)%nat ->
  bb2 psi a b i j = x_bb T a b i j + x_b T a i * x_b T b j - x_b T b i * x_b T a j.
Proof. intros. change (bb2 psi a b i j) with (opsem (noa d) (nob d) bra_bb (venv [a; b; i; j]) psi ref). rewrite (ee ext_bb bra_bb (venv [a; b; i; j]) c_bb); [reflexivity|side|exact hk_bb|side|exact k_bb0]. Qed.
Lemma h2bb a b i j : (a < nub d)%nat -> (b < nub d)%nat -> (i < nob d)%nat -> (j < nob d)%nat ->
  bb2 HP a b i j = E * (x_bb T a b i j + x_b T a i * x_b T b j - x_b T b i * x_b T a j) + (x_bb R0 a b i j + ((x_b R0 a i * x_b T b j + x_b T a i * x_b R0 b j) - (x_b R0 b i * x_b T a j + x_b T b i * x_b R0 a j))).
Proof.
  intros. change (bb2 HP a b i j) with (opsem (noa d) (nob d) bra_bb (venv [a; b; i; j]) HP ref). rewrite (he ext_bb bra_bb (venv [a; b; i; j]) d_bb); [|side|exact hk_bb|side|exact k_bb].
  change (dn d_bb (venv [a; b; i; j])) with (dn f_en (venv [a; b; i; j]) * (x_bb T a b i j + x_b T a i * x_b T b j - x_b T b i * x_b T a j) + (dn (rt (r_resid_bb 10 0 1 2 3)) (venv [a; b; i; j]) + ((dn (rt (r_ccsd_res_b 10 0 2)) (venv [a; b; i; j]) * x_b T b j + x_b T a i * dn (rt (r_ccsd_res_b 10 1 3)) (venv [a; b; i; j])) - (dn (rt (r_ccsd_res_b 10 1 2)) (venv [a; b; i; j]) * x_b T a j + x_b T b i * dn (rt (r_ccsd_res_b 10 0 3)) (venv [a; b; i; j]))))). rewrite en_den, !rt_ok. reflexivity.
Qed.

(** (H - E) exp(T) |ref> *)
Definition defect : state := fun D => HP D - E * psi D.
Lemma lin1 no so a i : along1 ref no so defect a i = along1 ref no so HP a i - E * along1 ref no so psi a i.
Proof. unfold along1, defect, cre, ann. destruct (bit _ _); [destruct (bit _ _)|]; ring. Qed.
Lemma lin2 no no' so so' a b i j : along2 ref no no' so so' defect a b i j = along2 ref no no' so so' HP a b i j - E * along2 ref no no' so so' psi a b i j.
Proof. unfold along2, defect, cre, ann. destruct (bit _ _); [destruct (bit _ _); [destruct (bit _ _); [|destruct (bit _ _)]|]|]; ring. Qed.
Lemma solves_flat : solves n I ref E psi <-> flat d defect.
Proof.
  rewrite <- (near_flat d n defect En En'). unfold solves, defect. split; intros G D HD; specialize (G D HD); [rewrite G; ring|lra].
Qed.
Lemma flat_zero : flat d defect <-> same_amps d R0 zero_amps.
Proof.
  split.
  - intros (_ & Fa & Fb & Faa & Fab & Fbb).
    assert (Za : forall a i, (a < nua d)%nat -> (i < noa d)%nat -> x_a R0 a i = 0).
    { intros a i Ha Hi. specialize (Fa a i Ha Hi). rewrite lin1, h1a, c1a in Fa by assumption. lra. }
    assert (Zb : forall a i, (a < nub d)%nat -> (i < nob d)%nat -> x_b R0 a i = 0).
    { intros a i Ha Hi. specialize (Fb a i Ha Hi). rewrite lin1, h1b, c1b in Fb by assumption. lra. }
    constructor; cbn [zero_amps x_a x_b x_aa x_ab x_bb]; [exact Za|exact Zb| | |]; intros a b i j Ha Hb Hi Hj.
    + specialize (Faa a b i j Ha Hb Hi Hj). rewrite lin2, h2aa, c2aa, !Za in Faa by assumption. lra.
    + specialize (Fab a b i j Ha Hb Hi Hj). rewrite lin2, h2ab, c2ab, Za, Zb in Fab by assumption. lra.
    + specialize (Fbb a b i j Ha Hb Hi Hj). rewrite lin2, h2bb, c2bb, !Zb in Fbb by assumption. lra.
  - intros [Za Zb Zaa Zab Zbb]. cbn [zero_amps x_a x_b x_aa x_ab x_bb] in Za, Zb, Zaa, Zab, Zbb. split; [|repeat split].
    + unfold defect. rewrite energy, norm. ring.
    + intros. rewrite lin1, h1a, c1a, Za by assumption. ring.
    + intros. rewrite lin1, h1b, c1b, Zb by assumption. ring.
    + intros. rewrite lin2, h2aa, c2aa, Zaa, !Za by assumption. ring.
    + intros. rewrite lin2, h2ab, c2ab, Zab, Za, Zb by assumption. ring.
    + intros. rewrite lin2, h2bb, c2bb, Zbb, !Zb by assumption. ring.
Qed.
Lemma solves_zero : solves n I ref E psi <-> same_amps d R0 zero_amps.
Proof. rewrite solves_flat. apply flat_zero. Qed.
End P.
