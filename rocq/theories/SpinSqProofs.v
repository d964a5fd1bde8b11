(** Proofs about the S^2 matrices. *)
From Coq Require Import List Arith Reals Bool Lia Lra.
From Coq Require Import ZArith ZifyNat.
From Verif Require Import RSum SpinSqModel SpinSqSpec.
Import ListNotations.
Local Open Scope R_scope.
Ltac Zify.zify_post_hook ::= Z.to_euclidean_division_equations.

(** ** Counting and signs *)
Lemma cnt_S : forall f p, cnt f (S p) = (cnt f p + if f p then 1 else 0)%nat.
Proof. intros f p. unfold cnt. rewrite seq_S, filter_app, app_length. cbn. destruct (f p); reflexivity. Qed.
Lemma cnt_lt : forall n p, cnt (fun q => (q <? n)%nat) p = Nat.min p n.
Proof.
  induction p as [|p IH]; [reflexivity|]. rewrite cnt_S, IH. destruct (Nat.ltb_spec p n); lia.
Qed.
Lemma cnt_true : forall f x p, f x = false -> cnt (upd f x true) p = (cnt f p + if x <? p then 1 else 0)%nat.
Proof.
  intros f x p H. induction p as [|p IH]; [reflexivity|]. rewrite !cnt_S, IH. unfold upd.
  destruct (Nat.eqb_spec p x) as [->|N].
  - rewrite H. destruct (Nat.ltb_spec x x), (Nat.ltb_spec x (S x)); lia.
  - destruct (Nat.ltb_spec x p), (Nat.ltb_spec x (S p)); lia.
Qed.
Lemma cnt_false : forall f x p, f x = true -> cnt (upd f x false) p = (cnt f p - if x <? p then 1 else 0)%nat.
Proof.
  intros f x p H.
  assert (E : cnt f p = (cnt (upd f x false) p + if x <? p then 1 else 0)%nat); [|rewrite E; lia].
  induction p as [|p IH]; [reflexivity|]. rewrite !cnt_S, IH. unfold upd at 3.
  destruct (Nat.eqb_spec p x) as [->|N].
  - rewrite H. destruct (Nat.ltb_spec x x), (Nat.ltb_spec x (S x)); lia.
  - destruct (Nat.ltb_spec x p), (Nat.ltb_spec x (S p)); lia.
Qed.

Lemma sgn_add : forall a b, sgn a * sgn b = sgn (a + b).
Proof. intros. unfold sgn. now rewrite pow_add. Qed.
Lemma sgn_even : forall n, (n mod 2 = 0)%nat -> sgn n = 1.
Proof. intros n H. unfold sgn. replace n with (2 * (n / 2))%nat by lia. apply pow_1_even. Qed.
Lemma sgn_odd : forall n, (n mod 2 = 1)%nat -> sgn n = -1.
Proof. intros n H. unfold sgn. replace n with (S (2 * (n / 2)))%nat by lia. apply pow_1_odd. Qed.

Lemma upd_eq : forall f x v, upd f x v x = v.
Proof. intros. unfold upd. now rewrite Nat.eqb_refl. Qed.
Lemma upd_neq : forall f x v q, q <> x -> upd f x v q = f q.
Proof. intros. unfold upd. destruct (Nat.eqb_spec q x); [contradiction|reflexivity]. Qed.

(** ** Inner products *)
Lemma same_refl : forall M s, same M s s = true.
Proof. intros. unfold same. apply forallb_forall. intros q _. now rewrite !eqb_reflx. Qed.
Lemma same_pt : forall M fa fb ga gb, (forall q, fa q = ga q) -> (forall q, fb q = gb q) -> same M (fa, fb) (ga, gb) = true.
Proof. intros. unfold same. apply forallb_forall. intros q _. cbn. now rewrite H, H0, !eqb_reflx. Qed.
Lemma same_false : forall M s t q, (q < M)%nat -> fst s q <> fst t q \/ snd s q <> snd t q -> same M s t = false.
Proof.
  intros M s t q L H. unfold same. apply not_true_is_false. intro E. rewrite forallb_forall in E.
  specialize (E q ltac:(apply in_seq; lia)). apply andb_prop in E. destruct E as [E1 E2].
  apply eqb_prop in E1. apply eqb_prop in E2. tauto.
Qed.

Lemma sum_one : forall M u v p0 q0, (p0 < M)%nat -> (q0 < M)%nat ->
  (forall p, (p < M)%nat -> p <> p0 -> Splus M p u = None) -> (forall q, (q < M)%nat -> q <> q0 -> Splus M q v = None) ->
  sumn M (fun p => sumn M (fun q => inner M (Splus M p u) (Splus M q v))) = inner M (Splus M p0 u) (Splus M q0 v).
Proof.
  intros M u v p0 q0 Lp Lq Hu Hv.
  rewrite (sumn_ext M _ (fun p => if (p =? p0)%nat then inner M (Splus M p0 u) (Splus M q0 v) else 0)).
  - now apply sumn_delta.
  - intros p Hp. destruct (Nat.eqb_spec p p0) as [->|N].
    + rewrite (sumn_ext M _ (fun q => if (q =? q0)%nat then inner M (Splus M p0 u) (Splus M q0 v) else 0)).
      * now apply sumn_delta.
      * intros q Hq. destruct (Nat.eqb_spec q q0) as [->|N]; [reflexivity|]. rewrite (Hv q Hq N). unfold inner. now destruct (Splus M p0 u) as [[? ?]|].
    + rewrite (Hu p Hp N). apply sumn_0. reflexivity.
Qed.
Lemma sum_none : forall M u v, (forall p, (p < M)%nat -> Splus M p u = None) ->
  sumn M (fun p => sumn M (fun q => inner M (Splus M p u) (Splus M q v))) = 0.
Proof. intros M u v H. apply sumn_0. intros p Hp. rewrite (H p Hp). apply sumn_0. reflexivity. Qed.
Lemma sum_none_r : forall M u v, (forall p, (p < M)%nat -> Splus M p v = None) ->
  sumn M (fun p => sumn M (fun q => inner M (Splus M p u) (Splus M q v))) = 0.
Proof. intros M u v H. apply sumn_0. intros p Hp. apply sumn_0. intros q Hq. rewrite (H q Hq). unfold inner. now destruct (Splus M p u) as [[? ?]|]. Qed.

Definition fO (n : nat) : occ := fun q => (q <? n)%nat.
Lemma fO_in : forall n q, (q < n)%nat -> fO n q = true.
Proof. intros. unfold fO. now apply Nat.ltb_lt. Qed.
Lemma fO_out : forall n q, (n <= q)%nat -> fO n q = false.
Proof. intros. unfold fO. now apply Nat.ltb_ge. Qed.
Lemma cnt_fO : forall n p, cnt (fO n) p = Nat.min p n.
Proof. exact cnt_lt. Qed.
Lemma ref_fO : forall a b, ref a b = Some (1, (fO a, fO b)).
Proof. reflexivity. Qed.

Ltac tf := repeat match goal with
  | |- context [upd ?f ?x ?v ?x] => rewrite (upd_eq f x v)
  | |- context [upd ?f ?x ?v ?q] => rewrite (upd_neq f x v q) by lia
  | |- context [fO ?n ?q] => first [rewrite (fO_in n q) by lia | rewrite (fO_out n q) by lia]
  end.
Ltac ops := cbn [creA annA creB annB Splus]; repeat (progress (cbn [creA annA creB annB Splus]; tf)).
Ltac cnts := repeat first [rewrite cnt_true by (tf; reflexivity) | rewrite cnt_false by (tf; reflexivity) | rewrite cnt_fO].
Ltac ifs := repeat match goal with |- context [if (?x <? ?y)%nat then _ else _] => destruct (Nat.ltb_spec x y); try lia end.
Ltac sg := rewrite ?Rmult_1_l, <- ?Rmult_assoc, ?sgn_add; cnts; ifs; first [apply sgn_even; lia | apply sgn_odd; lia].

(** Sign equalities: a product of signs is the sign of the sum. *)
Lemma Splus_some : forall M p c fa fb, fb p = true -> fa p = false ->
  Splus M p (Some (c, (fa, fb))) = Some (c * sgn (cnt fa M + cnt fb p) * sgn (cnt fa p), (upd fa p true, upd fb p false)).
Proof. intros. unfold Splus, annB. rewrite H. unfold creA. now rewrite H0. Qed.
Lemma Splus_none : forall M p c fa fb, fb p = false \/ fa p = true -> Splus M p (Some (c, (fa, fb))) = None.
Proof. intros M p c fa fb [H | H]; unfold Splus, annB; destruct (fb p) eqn:E; try discriminate; [reflexivity| |reflexivity]. unfold creA. now rewrite H. Qed.

Section Sys.
Variable s : osys.
Hypothesis HH : (nob s <= noa s <= M s)%nat.

Lemma ket_a_eq : forall a i, (i < noa s)%nat -> (noa s <= a < M s)%nat ->
  ket_a s (a, i) = Some (sgn (i + (noa s - 1)), (upd (upd (fO (noa s)) i false) a true, fO (nob s))).
Proof.
  intros a i Hi Ha. unfold ket_a. rewrite ref_fO. unfold annA. rewrite fO_in by lia. unfold creA. tf.
  do 2 f_equal. rewrite Rmult_1_l, sgn_add. f_equal. cnts. ifs.
Qed.
Lemma ket_b_eq : forall a i, (i < nob s)%nat -> (nob s <= a < M s)%nat ->
  ket_b s (a, i) = Some (sgn (i + (nob s - 1)), (fO (noa s), upd (upd (fO (nob s)) i false) a true)).
Proof.
  intros a i Hi Ha. unfold ket_b. rewrite ref_fO. unfold annB. rewrite fO_in by lia. unfold creB. tf.
  do 2 f_equal. rewrite Rmult_1_l, sgn_add. cnts. ifs.
  replace (Nat.min (M s) (noa s)) with (noa s) by lia.
  match goal with |- sgn ?x = sgn ?y => replace x with (y + 2 * noa s)%nat by lia end.
  rewrite <- sgn_add, (sgn_even (2 * noa s)); [lra|lia].
Qed.
Lemma ket_sf_eq : forall a i, (i < noa s)%nat -> (nob s <= a < M s)%nat ->
  ket_sf s (a, i) = Some (sgn (i + (noa s - 1 + nob s)), (upd (fO (noa s)) i false, upd (fO (nob s)) a true)).
Proof.
  intros a i Hi Ha. unfold ket_sf. rewrite ref_fO. unfold annA. rewrite fO_in by lia. unfold creB. tf.
  do 2 f_equal. rewrite Rmult_1_l, sgn_add. f_equal. cnts. ifs.
Qed.
Lemma ket_1h_eq : forall i, (i < noa s)%nat -> ket_1h s i = Some (sgn i, (upd (fO (noa s)) i false, fO (nob s))).
Proof. intros i Hi. unfold ket_1h. rewrite ref_fO. unfold annA. rewrite fO_in by lia. do 2 f_equal. rewrite Rmult_1_l. f_equal. cnts. lia. Qed.
Lemma ket_1p_eq : forall a, (noa s <= a < M s)%nat -> ket_1p s a = Some (sgn (noa s), (upd (fO (noa s)) a true, fO (nob s))).
Proof. intros a Ha. unfold ket_1p. rewrite ref_fO. unfold creA. rewrite fO_out by lia. do 2 f_equal. rewrite Rmult_1_l. f_equal. cnts. lia. Qed.
Lemma ket_2p_eq : forall a b, (noa s <= a < M s)%nat -> (nob s <= b < M s)%nat ->
  ket_2p s (a, b) = Some (sgn (noa s + nob s + noa s), (upd (fO (noa s)) a true, upd (fO (nob s)) b true)).
Proof.
  intros a b Ha Hb. unfold ket_2p. rewrite ref_fO. unfold creB. rewrite fO_out by lia. unfold creA. tf.
  do 2 f_equal. rewrite Rmult_1_l, sgn_add. f_equal. cnts. lia.
Qed.
Lemma ket_2h_eq : forall i j, (i < noa s)%nat -> (j < nob s)%nat ->
  ket_2h s (i, j) = Some (sgn (i + (noa s - 1 + j)), (upd (fO (noa s)) i false, upd (fO (nob s)) j false)).
Proof.
  intros i j Hi Hj. unfold ket_2h. rewrite ref_fO. unfold annA. rewrite fO_in by lia. unfold annB. tf.
  do 2 f_equal. rewrite Rmult_1_l, sgn_add. f_equal. cnts. ifs.
Qed.

Ltac pt := let q := fresh "q" in intro q; unfold upd, fO; repeat match goal with |- context [(?x =? ?y)%nat] => destruct (Nat.eqb_spec x y); try subst end;
  repeat match goal with |- context [(?x <? ?y)%nat] => destruct (Nat.ltb_spec x y) end; try reflexivity; try lia.
(** differ at orbital q, in the alpha (left) or beta (right) string *)
Ltac dif q := apply (same_false _ _ _ q); [lia|]; cbn [fst snd]; tf; try (left; congruence); try (right; congruence).

Definition msz : R := (INR (noa s) - INR (nob s)) / 2.
Lemma sz2_msz : get_sz2 s 0 = msz * (msz + 1).
Proof. unfold get_sz2, msz. field. Qed.

Lemma sz_a : forall a i, (i < noa s)%nat -> (noa s <= a < M s)%nat -> Sz (M s) (ket_a s (a, i)) = msz.
Proof. intros a i Hi Ha. rewrite ket_a_eq by assumption. unfold Sz, msz. cnts. ifs. do 3 f_equal; lia. Qed.
Lemma sz_b : forall a i, (i < nob s)%nat -> (nob s <= a < M s)%nat -> Sz (M s) (ket_b s (a, i)) = msz.
Proof. intros a i Hi Ha. rewrite ket_b_eq by assumption. unfold Sz, msz. cnts. ifs. do 3 f_equal; lia. Qed.

Lemma sq_sgn : forall n, sgn n * sgn n = 1.
Proof. intro n. rewrite sgn_add. apply sgn_even. lia. Qed.

Lemma in_aa : forall a i b j, (i < noa s)%nat -> (noa s <= a < M s)%nat -> (j < noa s)%nat -> (noa s <= b < M s)%nat ->
  inner (M s) (ket_a s (a, i)) (ket_a s (b, j)) = eqr i j * eqr a b.
Proof.
  intros a i b j Hi Ha Hj Hb. rewrite !ket_a_eq by assumption. unfold inner, eqr.
  destruct (Nat.eqb_spec i j) as [->|N]; [|cbn [b2r]].
  - destruct (Nat.eqb_spec a b) as [->|N]; [rewrite same_refl, sq_sgn; cbn; lra|]. replace (same _ _ _) with false; [cbn; lra|]. symmetry. dif a.
  - replace (same _ _ _) with false; [lra|]. symmetry. dif i.
Qed.
Lemma in_bb : forall a i b j, (i < nob s)%nat -> (nob s <= a < M s)%nat -> (j < nob s)%nat -> (nob s <= b < M s)%nat ->
  inner (M s) (ket_b s (a, i)) (ket_b s (b, j)) = eqr i j * eqr a b.
Proof.
  intros a i b j Hi Ha Hj Hb. rewrite !ket_b_eq by assumption. unfold inner, eqr.
  destruct (Nat.eqb_spec i j) as [->|N]; [|cbn [b2r]].
  - destruct (Nat.eqb_spec a b) as [->|N]; [rewrite same_refl, sq_sgn; cbn; lra|]. replace (same _ _ _) with false; [cbn; lra|]. symmetry. dif a.
  - replace (same _ _ _) with false; [lra|]. symmetry. dif i.
Qed.
Lemma in_ab : forall a i b j, (i < noa s)%nat -> (noa s <= a < M s)%nat -> (j < nob s)%nat -> (nob s <= b < M s)%nat ->
  inner (M s) (ket_a s (a, i)) (ket_b s (b, j)) = 0 /\ inner (M s) (ket_b s (b, j)) (ket_a s (a, i)) = 0.
Proof.
  intros a i b j Hi Ha Hj Hb. rewrite ket_a_eq, ket_b_eq by assumption. unfold inner. split.
  - replace (same _ _ _) with false; [reflexivity|]. symmetry. dif a.
  - replace (same _ _ _) with false; [reflexivity|]. symmetry. dif a.
Qed.

(** S+ on the singly excited determinants *)
Lemma plus_a_none : forall a i p, (i < noa s)%nat -> (noa s <= a < M s)%nat -> p <> i \/ (nob s <= i)%nat -> Splus (M s) p (ket_a s (a, i)) = None.
Proof.
  intros a i p Hi Ha Hp. rewrite ket_a_eq by assumption. apply Splus_none. destruct (le_lt_dec (nob s) p); [left; tf; reflexivity|].
  right. destruct Hp as [Hp | Hp]; tf; reflexivity.
Qed.
Lemma plus_a : forall a i, (i < nob s)%nat -> (noa s <= a < M s)%nat ->
  Splus (M s) i (ket_a s (a, i)) = Some (- sgn i, (upd (upd (upd (fO (noa s)) i false) a true) i true, upd (fO (nob s)) i false)).
Proof.
  intros a i Hi Ha. rewrite ket_a_eq by lia. rewrite Splus_some by (tf; reflexivity). do 2 f_equal.
  rewrite !sgn_add. cnts. ifs. replace (Nat.min (M s) (noa s) - 1 + 1)%nat with (noa s) by lia.
  match goal with |- sgn ?x = _ => replace x with (2 * i + (2 * (noa s - 1)) + (1 + i))%nat by lia end.
  rewrite <- !sgn_add, !(sgn_even (2 * _)) by lia. rewrite (sgn_odd 1) by lia. lra.
Qed.
Lemma plus_b_none : forall a i p, (i < nob s)%nat -> (nob s <= a < M s)%nat -> p <> a \/ (a < noa s)%nat -> Splus (M s) p (ket_b s (a, i)) = None.
Proof.
  intros a i p Hi Ha Hp. rewrite ket_b_eq by assumption. apply Splus_none. destruct (le_lt_dec (noa s) p); [left; destruct Hp; tf; reflexivity|].
  right. tf; reflexivity.
Qed.
Lemma plus_b : forall a i, (i < nob s)%nat -> (noa s <= a < M s)%nat ->
  Splus (M s) a (ket_b s (a, i)) = Some (sgn i, (upd (fO (noa s)) a true, upd (upd (upd (fO (nob s)) i false) a true) a false)).
Proof.
  intros a i Hi Ha. rewrite ket_b_eq by lia. rewrite Splus_some by (tf; reflexivity). do 2 f_equal.
  rewrite !sgn_add. cnts. ifs.
  match goal with |- sgn ?x = _ => replace x with (2 * (nob s - 1) + 2 * noa s + i)%nat by lia end.
  rewrite <- !sgn_add, !(sgn_even (2 * _)) by lia. lra.
Qed.

Lemma el_aa : forall a i b j, (i < noa s)%nat -> (noa s <= a < M s)%nat -> (j < noa s)%nat -> (noa s <= b < M s)%nat ->
  (get_sz2 s 0 + 1 * chi_beta s i) * eqr i j * eqr a b = S2 (M s) (ket_a s (a, i)) (ket_a s (b, j)).
Proof.
  intros a i b j Hi Ha Hj Hb. unfold S2. rewrite sz_a, in_aa, <- sz2_msz by assumption.
  assert (sumn (M s) (fun p => sumn (M s) (fun q => inner (M s) (Splus (M s) p (ket_a s (a, i))) (Splus (M s) q (ket_a s (b, j))))) = chi_beta s i * eqr i j * eqr a b) as ->; [|lra].
  unfold chi_beta. destruct (Nat.ltb_spec i (nob s)) as [Li|Li].
  - destruct (le_lt_dec (nob s) j) as [Lj|Lj].
    + rewrite sum_none_r by (intros; apply plus_a_none; auto). unfold eqr at 1. destruct (Nat.eqb_spec i j); [lia|]. cbn. lra.
    + rewrite (sum_one _ _ _ i j), !plus_a by (try lia; intros; apply plus_a_none; auto). unfold inner, eqr.
      destruct (Nat.eqb_spec i j) as [->|N].
      * destruct (Nat.eqb_spec a b) as [->|N]; [rewrite same_refl; cbn; replace (- sgn j * - sgn j) with (sgn j * sgn j) by lra; rewrite sq_sgn; lra|].
        replace (same _ _ _) with false; [cbn; lra|]. symmetry. dif a.
      * replace (same _ _ _) with false; [cbn; lra|]. symmetry. dif i.
  - rewrite sum_none by (intros; apply plus_a_none; auto). cbn. lra.
Qed.
Lemma el_bb : forall a i b j, (i < nob s)%nat -> (nob s <= a < M s)%nat -> (j < nob s)%nat -> (nob s <= b < M s)%nat ->
  (get_sz2 s 0 + 1 * pi_alpha s a) * eqr i j * eqr a b = S2 (M s) (ket_b s (a, i)) (ket_b s (b, j)).
Proof.
  intros a i b j Hi Ha Hj Hb. unfold S2. rewrite sz_b, in_bb, <- sz2_msz by assumption.
  assert (sumn (M s) (fun p => sumn (M s) (fun q => inner (M s) (Splus (M s) p (ket_b s (a, i))) (Splus (M s) q (ket_b s (b, j))))) = pi_alpha s a * eqr i j * eqr a b) as ->; [|lra].
  unfold pi_alpha, nua. destruct (Nat.leb_spec (noa s) a) as [La|La]; destruct (Nat.ltb_spec a (M s - noa s + noa s)); try lia; cbn [andb].
  - destruct (le_lt_dec (noa s) b) as [Lb|Lb].
    + rewrite (sum_one _ _ _ a b), !plus_b by (try lia; intros; apply plus_b_none; auto). unfold inner, eqr.
      destruct (Nat.eqb_spec i j) as [->|N].
      * destruct (Nat.eqb_spec a b) as [->|N]; [rewrite same_refl, sq_sgn; cbn; lra|].
        replace (same _ _ _) with false; [cbn; lra|]. symmetry. dif a.
      * replace (same _ _ _) with false; [cbn; lra|]. symmetry. dif i.
    + rewrite sum_none_r by (intros; apply plus_b_none; auto). unfold eqr at 2. destruct (Nat.eqb_spec a b); [lia|]. cbn. lra.
  - rewrite sum_none by (intros; apply plus_b_none; auto). cbn. lra.
Qed.
Lemma el_ab : forall a i b j, (i < noa s)%nat -> (noa s <= a < M s)%nat -> (j < nob s)%nat -> (nob s <= b < M s)%nat ->
  - (1) * eqr i j * eqr a b * chi_beta s i * pi_alpha s a = S2 (M s) (ket_a s (a, i)) (ket_b s (b, j)) /\
  - (1) * eqr j i * eqr b a * chi_beta s j * pi_alpha s b = S2 (M s) (ket_b s (b, j)) (ket_a s (a, i)).
Proof.
  intros a i b j Hi Ha Hj Hb. unfold S2. rewrite sz_a, sz_b by assumption. destruct (in_ab a i b j) as [-> ->]; try assumption.
  assert (PA : pi_alpha s a = 1) by (unfold pi_alpha, nua; destruct (Nat.leb_spec (noa s) a); destruct (Nat.ltb_spec a (M s - noa s + noa s)); try lia; reflexivity).
  assert (CJ : chi_beta s j = 1) by (unfold chi_beta; destruct (Nat.ltb_spec j (nob s)); try lia; reflexivity).
  unfold eqr. rewrite (Nat.eqb_sym j i), (Nat.eqb_sym b a).
  destruct (le_lt_dec (nob s) i) as [Li|Li].
  { destruct (Nat.eqb_spec i j); [lia|]. rewrite sum_none by (intros; apply plus_a_none; auto). rewrite sum_none_r by (intros; apply plus_a_none; auto). cbn. lra. }
  destruct (le_lt_dec (noa s) b) as [Lb|Lb].
  2: { destruct (Nat.eqb_spec a b); [lia|]. rewrite sum_none_r by (intros; apply plus_b_none; auto). rewrite sum_none by (intros; apply plus_b_none; auto). cbn. lra. }
  assert (CI : chi_beta s i = 1) by (unfold chi_beta; destruct (Nat.ltb_spec i (nob s)); try lia; reflexivity).
  assert (PB : pi_alpha s b = 1) by (unfold pi_alpha, nua; destruct (Nat.leb_spec (noa s) b); destruct (Nat.ltb_spec b (M s - noa s + noa s)); try lia; reflexivity).
  rewrite PA, PB, CI, CJ.
  rewrite (sum_one _ _ _ i b), (sum_one _ _ _ b i) by (try lia; intros; first [apply plus_a_none; auto; lia | apply plus_b_none; auto; lia]).
  rewrite plus_a, plus_b by lia. unfold inner.
  destruct (Nat.eqb_spec i j) as [->|N].
  - destruct (Nat.eqb_spec a b) as [->|N].
    + rewrite !same_pt by pt. cbn. replace (- sgn j * sgn j) with (- (sgn j * sgn j)) by lra. replace (sgn j * - sgn j) with (- (sgn j * sgn j)) by lra. rewrite sq_sgn. lra.
    + replace (same _ _ _) with false by (symmetry; dif a). replace (same _ _ _) with false by (symmetry; dif a). cbn. lra.
  - replace (same _ _ _) with false by (symmetry; dif i). replace (same _ _ _) with false by (symmetry; dif i). cbn. lra.
Qed.

Ltac bcase := repeat match goal with
  | |- context [(?x =? ?y)%nat] => destruct (Nat.eqb_spec x y); try subst; try lia
  | |- context [(?x <? ?y)%nat] => destruct (Nat.ltb_spec x y); try lia
  | |- context [(?x <=? ?y)%nat] => destruct (Nat.leb_spec x y); try lia end.
Ltac dead q := replace (same _ _ _) with false by (symmetry; dif q).

(** *** One hole, one particle *)
Lemma el_1h : forall i j, (i < noa s)%nat -> (j < noa s)%nat ->
  0 + get_sz2_ip s * eqr i j + chi_beta s i * eqr i j = S2 (M s) (ket_1h s i) (ket_1h s j).
Proof.
  intros i j Hi Hj. unfold S2.
  assert (N1 : forall k p, (k < noa s)%nat -> p <> k \/ (nob s <= k)%nat -> Splus (M s) p (ket_1h s k) = None).
  { intros k p Hk Hp. rewrite ket_1h_eq by assumption. apply Splus_none. destruct (le_lt_dec (nob s) p); [left; tf; reflexivity|].
    right. destruct Hp; tf; reflexivity. }
  assert (N2 : forall k, (k < nob s)%nat -> Splus (M s) k (ket_1h s k) = Some (sgn (k + (noa s - 1)), (upd (upd (fO (noa s)) k false) k true, upd (fO (nob s)) k false))).
  { intros k Hk. rewrite ket_1h_eq by lia. rewrite Splus_some by (tf; reflexivity). do 2 f_equal. rewrite !sgn_add. cnts. ifs.
    match goal with |- sgn ?x = sgn ?y => replace x with (y + 2 * k)%nat by lia end. rewrite <- sgn_add, (sgn_even (2 * k)) by lia. lra. }
  assert (Z : Sz (M s) (ket_1h s j) = ((INR (noa s) - 1) - INR (nob s)) / 2).
  { rewrite ket_1h_eq by assumption. unfold Sz. cnts. ifs. replace (Nat.min (M s) (nob s)) with (nob s) by lia.
    replace (Nat.min (M s) (noa s)) with (noa s) by lia. rewrite minus_INR by lia. cbn [INR]. lra. }
  assert (I : inner (M s) (ket_1h s i) (ket_1h s j) = eqr i j).
  { rewrite !ket_1h_eq by assumption. unfold inner, eqr. destruct (Nat.eqb_spec i j) as [->|N]; [now rewrite same_refl, sq_sgn|]. dead i. reflexivity. }
  rewrite Z, I. unfold get_sz2_ip.
  assert (sumn (M s) (fun p => sumn (M s) (fun q => inner (M s) (Splus (M s) p (ket_1h s i)) (Splus (M s) q (ket_1h s j)))) = chi_beta s i * eqr i j) as ->; [|lra].
  unfold chi_beta. destruct (Nat.ltb_spec i (nob s)) as [Li|Li]; [|rewrite sum_none by (intros; apply N1; auto); cbn; lra].
  destruct (le_lt_dec (nob s) j) as [Lj|Lj].
  - rewrite sum_none_r by (intros; apply N1; auto). unfold eqr. destruct (Nat.eqb_spec i j); [lia|]. cbn. lra.
  - rewrite (sum_one _ _ _ i j), !N2 by (try lia; intros; apply N1; auto; lia). unfold inner, eqr.
    destruct (Nat.eqb_spec i j) as [->|N]; [rewrite same_refl, sq_sgn; cbn; lra|]. dead i. cbn. lra.
Qed.

Lemma el_1p : forall a b, (noa s <= a < M s)%nat -> (noa s <= b < M s)%nat ->
  0 + get_sz2_ea s * eqr a b + pi_alpha s a * eqr a b + INR (noa s - nob s) * eqr a b = S2 (M s) (ket_1p s a) (ket_1p s b).
Proof.
  intros a b Ha Hb. unfold S2. rewrite sum_none.
  2: { intros p _. rewrite ket_1p_eq by assumption. apply Splus_none. destruct (le_lt_dec (nob s) p); [left; tf; reflexivity|right; tf; reflexivity]. }
  assert (Z : Sz (M s) (ket_1p s b) = ((INR (noa s) + 1) - INR (nob s)) / 2).
  { rewrite ket_1p_eq by assumption. unfold Sz. cnts. ifs. replace (Nat.min (M s) (nob s)) with (nob s) by lia.
    replace (Nat.min (M s) (noa s)) with (noa s) by lia. rewrite plus_INR. cbn [INR]. lra. }
  assert (I : inner (M s) (ket_1p s a) (ket_1p s b) = eqr a b).
  { rewrite !ket_1p_eq by assumption. unfold inner, eqr. destruct (Nat.eqb_spec a b) as [->|N]; [now rewrite same_refl, sq_sgn|]. dead a. reflexivity. }
  rewrite Z, I. unfold get_sz2_ea. rewrite minus_INR by lia.
  assert (pi_alpha s a = 1) as -> by (unfold pi_alpha, nua; bcase; reflexivity). field.
Qed.

(** *** Two particles, two holes *)
Lemma el_2p : forall a b c d, (noa s <= a < M s)%nat -> (nob s <= b < M s)%nat -> (noa s <= c < M s)%nat -> (nob s <= d < M s)%nat ->
  0 + (get_sz2 s 0 + 1 * pi_alpha s a) * eqr a c * eqr b d - eqr b c * eqr a d - (1 - pi_alpha s b) * eqr a c * eqr b d
  = S2 (M s) (ket_2p s (a, b)) (ket_2p s (c, d)).
Proof.
  intros a b c d Ha Hb Hc Hd. unfold S2.
  assert (N1 : forall a b p, (noa s <= a < M s)%nat -> (nob s <= b < M s)%nat -> p <> b \/ (b < noa s)%nat \/ a = b -> Splus (M s) p (ket_2p s (a, b)) = None).
  { clear - HH. intros a b p Ha Hb Hp. rewrite ket_2p_eq by assumption. apply Splus_none. destruct (Nat.eq_dec p b) as [->|N].
    - right. destruct Hp as [Hp | [Hp | ->]]; [contradiction|tf; reflexivity|tf; reflexivity].
    - destruct (le_lt_dec (nob s) p); [left; tf; reflexivity|right; tf; reflexivity]. }
  assert (N2 : forall a b, (noa s <= a < M s)%nat -> (noa s <= b < M s)%nat -> a <> b ->
    Splus (M s) b (ket_2p s (a, b)) = Some (sgn (1 + if a <? b then 1 else 0), (upd (upd (fO (noa s)) a true) b true, upd (upd (fO (nob s)) b true) b false))).
  { clear - HH. intros a b Ha Hb Hab. rewrite ket_2p_eq by lia. rewrite Splus_some by (tf; reflexivity). do 2 f_equal. rewrite !sgn_add. cnts.
    destruct (Nat.ltb_spec a (M s)); [|lia]. destruct (Nat.ltb_spec b b); [lia|].
    destruct (Nat.ltb_spec a b); match goal with |- sgn ?x = sgn ?z => replace x with (z + 2 * (2 * noa s) + 2 * nob s)%nat by lia end;
    rewrite <- !sgn_add, !(sgn_even (2 * _)) by lia; lra. }
  assert (Z : Sz (M s) (ket_2p s (c, d)) = msz).
  { rewrite ket_2p_eq by assumption. unfold Sz, msz. cnts. ifs. replace (Nat.min (M s) (nob s)) with (nob s) by lia.
    replace (Nat.min (M s) (noa s)) with (noa s) by lia. rewrite !plus_INR. cbn [INR]. lra. }
  assert (I : inner (M s) (ket_2p s (a, b)) (ket_2p s (c, d)) = eqr a c * eqr b d).
  { rewrite !ket_2p_eq by assumption. unfold inner, eqr. destruct (Nat.eqb_spec a c) as [->|N].
    - destruct (Nat.eqb_spec b d) as [->|N]; [rewrite same_refl, sq_sgn; cbn; lra|]. dead b. cbn. lra.
    - dead a. cbn. lra. }
  rewrite Z, I, <- sz2_msz.
  assert (sumn (M s) (fun p => sumn (M s) (fun q => inner (M s) (Splus (M s) p (ket_2p s (a, b))) (Splus (M s) q (ket_2p s (c, d))))) = pi_alpha s b * eqr a c * eqr b d - eqr b c * eqr a d) as ->.
  2: { assert (pi_alpha s a = 1) as -> by (unfold pi_alpha, nua; bcase; reflexivity). lra. }
  destruct (le_lt_dec (noa s) b) as [Lb|Lb].
  2: { rewrite sum_none by (intros; apply N1; auto). unfold pi_alpha, eqr. bcase; cbn; try lra. }
  assert (pi_alpha s b = 1) as -> by (unfold pi_alpha, nua; bcase; reflexivity).
  destruct (le_lt_dec (noa s) d) as [Ld|Ld].
  2: { rewrite sum_none_r by (intros; apply N1; auto). unfold eqr. bcase; cbn; try lra. }
  destruct (Nat.eq_dec a b) as [->|Nab].
  { rewrite sum_none by (intros; apply N1; auto). unfold eqr. bcase; cbn; try lra. }
  destruct (Nat.eq_dec c d) as [->|Ncd].
  { rewrite sum_none_r by (intros; apply N1; auto). unfold eqr. bcase; cbn; try lra. }
  rewrite (sum_one _ _ _ b d), !N2 by (try lia; intros; apply N1; auto; lia). unfold inner, eqr.
  destruct (Nat.eqb_spec a c) as [->|Nac].
  - destruct (Nat.eqb_spec b d) as [->|Nbd].
    + rewrite same_refl, sq_sgn. bcase; cbn; lra.
    + dead b. bcase; cbn; lra.
  - destruct (Nat.eqb_spec a d) as [->|Nad].
    + destruct (Nat.eqb_spec b c) as [->|Nbc].
      * rewrite same_pt by pt. rewrite sgn_add. bcase; cbn [b2r]; (rewrite sgn_odd by lia); lra.
      * dead b. cbn. lra.
    + dead a. bcase; cbn; lra.
Qed.

Lemma el_2h : forall i j m n, (i < noa s)%nat -> (j < nob s)%nat -> (m < noa s)%nat -> (n < nob s)%nat ->
  eqr i m * eqr j n - eqr i n * eqr j m + (get_sz2 s 0 - (1 - chi_beta s i)) * eqr i m * eqr j n
  = S2 (M s) (ket_2h s (i, j)) (ket_2h s (m, n)).
Proof.
  intros i j m n Hi Hj Hm Hn. unfold S2.
  assert (N1 : forall i j p, (i < noa s)%nat -> (j < nob s)%nat -> p <> i \/ (nob s <= i)%nat \/ i = j -> Splus (M s) p (ket_2h s (i, j)) = None).
  { clear - HH. intros i j p Hi Hj Hp. rewrite ket_2h_eq by assumption. apply Splus_none. destruct (Nat.eq_dec p i) as [->|N].
    - left. destruct Hp as [Hp | [Hp | ->]]; [contradiction|tf; reflexivity|tf; reflexivity].
    - destruct (le_lt_dec (noa s) p); [left|right]; [destruct (Nat.eq_dec p j) as [->|]; tf; reflexivity|tf; reflexivity]. }
  assert (N2 : forall i j, (i < nob s)%nat -> (j < nob s)%nat -> i <> j ->
    Splus (M s) i (ket_2h s (i, j)) = Some (sgn (i + j + if j <? i then 1 else 0), (upd (upd (fO (noa s)) i false) i true, upd (upd (fO (nob s)) j false) i false))).
  { clear - HH. intros i j Hi Hj Hij. rewrite ket_2h_eq by lia. rewrite Splus_some by (tf; reflexivity). do 2 f_equal. rewrite !sgn_add. cnts.
    destruct (Nat.ltb_spec i (M s)); [|lia]. destruct (Nat.ltb_spec i i); [lia|].
    destruct (Nat.ltb_spec j i).
    - match goal with |- sgn ?x = sgn ?z => replace x with (2 * (noa s - 1) + 2 * (i - 1) + z)%nat by lia end.
      rewrite <- !sgn_add, !(sgn_even (2 * _)) by lia. lra.
    - match goal with |- sgn ?x = sgn ?z => replace x with (2 * (noa s - 1) + 2 * i + z)%nat by lia end.
      rewrite <- !sgn_add, !(sgn_even (2 * _)) by lia. lra. }
  assert (Z : Sz (M s) (ket_2h s (m, n)) = msz).
  { rewrite ket_2h_eq by assumption. unfold Sz, msz. cnts. ifs. replace (Nat.min (M s) (nob s)) with (nob s) by lia.
    replace (Nat.min (M s) (noa s)) with (noa s) by lia. rewrite !minus_INR by lia. cbn [INR]. lra. }
  assert (I : inner (M s) (ket_2h s (i, j)) (ket_2h s (m, n)) = eqr i m * eqr j n).
  { rewrite !ket_2h_eq by assumption. unfold inner, eqr. destruct (Nat.eqb_spec i m) as [->|N].
    - destruct (Nat.eqb_spec j n) as [->|N]; [rewrite same_refl, sq_sgn; cbn; lra|]. dead j. cbn. lra.
    - dead i. cbn. lra. }
  rewrite Z, I, <- sz2_msz.
  assert (sumn (M s) (fun p => sumn (M s) (fun q => inner (M s) (Splus (M s) p (ket_2h s (i, j))) (Splus (M s) q (ket_2h s (m, n))))) = chi_beta s i * eqr i m * eqr j n - eqr i n * eqr j m) as ->; [|lra].
  unfold chi_beta. destruct (Nat.ltb_spec i (nob s)) as [Li|Li]; cbn [b2r].
  2: { rewrite sum_none by (intros; apply N1; auto). unfold eqr. bcase; cbn; try lra. }
  destruct (le_lt_dec (nob s) m) as [Lm|Lm].
  { rewrite sum_none_r by (intros; apply N1; auto). unfold eqr. bcase; cbn; try lra. }
  destruct (Nat.eq_dec i j) as [->|Nij].
  { rewrite sum_none by (intros; apply N1; auto). unfold eqr. bcase; cbn; try lra. }
  destruct (Nat.eq_dec m n) as [->|Nmn].
  { rewrite sum_none_r by (intros; apply N1; auto). unfold eqr. bcase; cbn; try lra. }
  rewrite (sum_one _ _ _ i m), !N2 by (try lia; intros; apply N1; auto; lia). unfold inner, eqr.
  destruct (Nat.eqb_spec i m) as [->|Nim].
  - destruct (Nat.eqb_spec j n) as [->|Njn].
    + rewrite same_refl, sq_sgn. bcase; cbn; lra.
    + dead j. bcase; cbn; lra.
  - destruct (Nat.eqb_spec i n) as [->|Nin].
    + destruct (Nat.eqb_spec j m) as [->|Njm].
      * rewrite same_pt by pt. rewrite sgn_add. bcase; cbn [b2r]; (rewrite sgn_odd by lia); lra.
      * dead j. cbn. lra.
    + dead i. bcase; cbn; lra.
Qed.

(** *** Spin-flip *)
Lemma plus_sf : forall a i p, (i < noa s)%nat -> (nob s <= a < M s)%nat -> Splus (M s) p (ket_sf s (a, i)) =
  if ((p =? i) && (i <? nob s))%nat then Some (sgn (i + noa s - 1 + nob s + (i + i + noa s - 1)), (upd (upd (fO (noa s)) i false) i true, upd (upd (fO (nob s)) a true) i false))
  else if ((p =? a) && ((noa s <=? a) || (a =? i)))%nat then Some (if (a =? i)%nat then 1 else sgn (i + (noa s - 1)), (upd (upd (fO (noa s)) i false) a true, upd (upd (fO (nob s)) a true) a false))
  else None.
Proof.
  intros a i p Hi Ha. rewrite ket_sf_eq by assumption.
  destruct (Nat.eqb_spec p i) as [->|Npi]; destruct (Nat.ltb_spec i (nob s)) as [Li|Li]; cbn [andb].
  - rewrite Splus_some by (tf; reflexivity). do 2 f_equal. rewrite !sgn_add. f_equal. cnts. ifs.
  - destruct (Nat.eqb_spec i a) as [->|N]; cbn [andb].
    + rewrite Nat.eqb_refl, orb_true_r. rewrite Splus_some by (tf; reflexivity). do 2 f_equal. rewrite !sgn_add. cnts. ifs. apply sgn_even. lia.
    + apply Splus_none. left. tf. reflexivity.
  - destruct (Nat.eqb_spec p a) as [->|N]; cbn [andb].
    + destruct (Nat.leb_spec (noa s) a) as [La|La]; cbn [orb].
      * destruct (Nat.eqb_spec a i); [lia|]. rewrite Splus_some by (tf; reflexivity). do 2 f_equal. rewrite !sgn_add. cnts. ifs.
        match goal with |- sgn ?x = sgn ?z => replace x with (z + 2 * nob s + 2 * (noa s - 1))%nat by lia end. rewrite <- !sgn_add, !(sgn_even (2 * _)) by lia. lra.
      * destruct (Nat.eqb_spec a i); [lia|]. apply Splus_none. right. tf. reflexivity.
    + apply Splus_none. destruct (le_lt_dec (nob s) p); [left|right]; tf; reflexivity.
  - destruct (Nat.eqb_spec p a) as [->|N]; cbn [andb].
    + destruct (Nat.leb_spec (noa s) a) as [La|La]; cbn [orb].
      * destruct (Nat.eqb_spec a i); [lia|]. rewrite Splus_some by (tf; reflexivity). do 2 f_equal. rewrite !sgn_add. cnts. ifs.
        match goal with |- sgn ?x = sgn ?z => replace x with (z + 2 * nob s + 2 * (noa s - 1))%nat by lia end. rewrite <- !sgn_add, !(sgn_even (2 * _)) by lia. lra.
      * destruct (Nat.eqb_spec a i); [lia|]. apply Splus_none. right. tf. reflexivity.
    + apply Splus_none. destruct (le_lt_dec (nob s) p); [left|right]; tf; reflexivity.
Qed.

Lemma sum_two : forall u v p1 q1 X p2 q2 Y, (p1 < M s)%nat -> (q1 < M s)%nat -> (p2 < M s)%nat -> (q2 < M s)%nat ->
  (forall p q, inner (M s) (Splus (M s) p u) (Splus (M s) q v) = (if (p =? p1)%nat then if (q =? q1)%nat then X else 0 else 0) + (if (p =? p2)%nat then if (q =? q2)%nat then Y else 0 else 0)) ->
  sumn (M s) (fun p => sumn (M s) (fun q => inner (M s) (Splus (M s) p u) (Splus (M s) q v))) = X + Y.
Proof.
  intros u v p1 q1 X p2 q2 Y H1 H2 H3 H4 H.
  rewrite (sumn_ext (M s) _ (fun p => (if (p =? p1)%nat then X else 0) + (if (p =? p2)%nat then Y else 0))).
  - rewrite sumn_plus, !sumn_delta by assumption. reflexivity.
  - intros p Hp. rewrite (sumn_ext (M s) _ (fun q => (if (p =? p1)%nat then if (q =? q1)%nat then X else 0 else 0) + (if (p =? p2)%nat then if (q =? q2)%nat then Y else 0 else 0))) by (intros; apply H).
    rewrite sumn_plus. f_equal.
    + destruct (p =? p1)%nat; [now apply sumn_delta|apply sumn_0; reflexivity].
    + destruct (p =? p2)%nat; [now apply sumn_delta|apply sumn_0; reflexivity].
Qed.

Lemma in_sf : forall a i b j q, (i < noa s)%nat -> (nob s <= a < M s)%nat -> (j < noa s)%nat -> (nob s <= b < M s)%nat -> (noa s <= a)%nat \/ a = i ->
  inner (M s) (Some (if (a =? i)%nat then 1 else sgn (i + (noa s - 1)), (upd (upd (fO (noa s)) i false) a true, upd (upd (fO (nob s)) a true) a false)))
    (Splus (M s) q (ket_sf s (b, j))) = if (q =? b)%nat then pi_alpha s a * eqr a b * eqr i j + eqr a i * eqr b j else 0.
Proof.
  intros a i b j q Hi Ha Hj Hb C. rewrite plus_sf by assumption. unfold pi_alpha, nua, eqr.
  destruct (Nat.eqb_spec q j) as [->|Nqj]; destruct (Nat.ltb_spec j (nob s)) as [Lj|Lj]; cbn [andb].
  - unfold inner. destruct (Nat.eqb_spec j b); [lia|]. dead j. reflexivity.
  - destruct (Nat.eqb_spec j b) as [->|N]; cbn [andb]; [|reflexivity]. rewrite Nat.eqb_refl, orb_true_r. unfold inner.
    destruct (Nat.eqb_spec a i) as [->|N].
    + rewrite same_pt by pt. bcase; cbn; lra.
    + destruct (Nat.leb_spec (noa s) a); [|lia]. dead a. bcase; cbn; lra.
  - destruct (Nat.eqb_spec q b) as [->|N]; cbn [andb]; [|reflexivity]. destruct (Nat.eqb_spec b j); [lia|]. rewrite orb_false_r.
    destruct (Nat.leb_spec (noa s) b) as [Lb|Lb]; cbn [andb].
    + unfold inner. destruct (Nat.eqb_spec a i) as [->|N'].
      * dead b. bcase; cbn; lra.
      * destruct (Nat.eqb_spec a b) as [->|Nab]; [|dead a; bcase; cbn; lra].
        destruct (Nat.eqb_spec i j) as [->|Nij]; [rewrite same_refl, sq_sgn; bcase; cbn; lra|]. dead i. bcase; cbn; lra.
    + unfold inner. bcase; cbn; lra.
  - destruct (Nat.eqb_spec q b) as [->|N]; cbn [andb]; [|reflexivity]. destruct (Nat.eqb_spec b j); [lia|]. rewrite orb_false_r.
    destruct (Nat.leb_spec (noa s) b) as [Lb|Lb]; cbn [andb].
    + unfold inner. destruct (Nat.eqb_spec a i) as [->|N'].
      * dead b. bcase; cbn; lra.
      * destruct (Nat.eqb_spec a b) as [->|Nab]; [|dead a; bcase; cbn; lra].
        destruct (Nat.eqb_spec i j) as [->|Nij]; [rewrite same_refl, sq_sgn; bcase; cbn; lra|]. dead i. bcase; cbn; lra.
    + unfold inner. bcase; cbn; lra.
Qed.

Lemma el_sf : forall a i b j, (i < noa s)%nat -> (nob s <= a < M s)%nat -> (j < noa s)%nat -> (nob s <= b < M s)%nat ->
  0 + get_sz2 s (-1) * eqr a b * eqr i j + eqr a i * eqr b j + (chi_beta s i + pi_alpha s a) * eqr a b * eqr i j
  = S2 (M s) (ket_sf s (a, i)) (ket_sf s (b, j)).
Proof.
  intros a i b j Hi Ha Hj Hb. unfold S2.
  assert (Z : Sz (M s) (ket_sf s (b, j)) = ((INR (noa s) + -1) - (INR (nob s) - -1)) / 2).
  { rewrite ket_sf_eq by assumption. unfold Sz. cnts. ifs. replace (Nat.min (M s) (nob s)) with (nob s) by lia.
    replace (Nat.min (M s) (noa s)) with (noa s) by lia. rewrite plus_INR, minus_INR by lia. cbn [INR]. lra. }
  assert (I : inner (M s) (ket_sf s (a, i)) (ket_sf s (b, j)) = eqr a b * eqr i j).
  { rewrite !ket_sf_eq by assumption. unfold inner, eqr. destruct (Nat.eqb_spec a b) as [->|N].
    - destruct (Nat.eqb_spec i j) as [->|N]; [rewrite same_refl, sq_sgn; cbn; lra|]. dead i. cbn. lra.
    - dead a. cbn. lra. }
  rewrite Z, I. unfold get_sz2.
  rewrite (sum_two _ _ i j (chi_beta s i * eqr a b * eqr i j) a b (pi_alpha s a * eqr a b * eqr i j + eqr a i * eqr b j)); [lra|lia..|].
  intros p q. rewrite (plus_sf a i p) by assumption.
  destruct ((p =? i) && (i <? nob s))%nat eqn:E1.
  2: { replace (if (p =? i)%nat then if (q =? j)%nat then chi_beta s i * eqr a b * eqr i j else 0 else 0) with 0.
       2: { unfold chi_beta. destruct (p =? i)%nat; [|reflexivity]. cbn [andb] in E1. rewrite E1. destruct (q =? j)%nat; cbn; lra. }
       destruct (Nat.eqb_spec p a) as [->|Npa]; cbn [andb]; [|cbn; lra].
       destruct (Nat.leb_spec (noa s) a) as [La|La]; cbn [orb]; [rewrite in_sf by auto; lra|].
       destruct (Nat.eqb_spec a i) as [Ei|Nai].
       - replace 1 with (if (a =? i)%nat then 1 else sgn (i + (noa s - 1))) by (destruct (Nat.eqb_spec a i); [reflexivity|contradiction]).
         rewrite in_sf by auto. lra.
       - cbn [inner]. unfold pi_alpha, eqr, nua. bcase; cbn; lra. }
  rewrite plus_sf by assumption. revert E1. unfold chi_beta, pi_alpha, nua, eqr.
  destruct (Nat.eqb_spec p i) as [->|Npi]; destruct (Nat.ltb_spec i (nob s)) as [Li|Li]; cbn [andb b2r]; intro E1; try discriminate E1.
  - destruct (Nat.eqb_spec i a); [lia|]. destruct (Nat.eqb_spec q j) as [->|Nqj]; destruct (Nat.ltb_spec j (nob s)) as [Lj|Lj]; cbn [andb b2r].
    + unfold inner. destruct (Nat.eqb_spec i j) as [->|Nij].
      * destruct (Nat.eqb_spec a b) as [->|Nab]; [rewrite same_refl, sq_sgn; cbn; lra|]. dead a. cbn; lra.
      * dead i. cbn; lra.
    + destruct (Nat.eqb_spec i j); [lia|]. destruct ((j =? b) && ((noa s <=? b) || (b =? j)))%nat eqn:E; unfold inner; [|cbn; lra]. dead i. cbn; lra.
    + destruct ((q =? b) && ((noa s <=? b) || (b =? j)))%nat eqn:E; unfold inner; [|cbn; lra]. dead i. cbn; lra.
    + destruct ((q =? b) && ((noa s <=? b) || (b =? j)))%nat eqn:E; unfold inner; [|cbn; lra]. dead i. cbn; lra.
Qed.
End Sys.
