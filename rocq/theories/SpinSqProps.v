(** C44: the S^2 matrices of the initial-guess routines against the total-spin operator. *)
From Coq Require Import List Arith Reals Bool Lia Lra FinFun.
From Verif Require Import RSum SpinSqModel SpinSqSpec SpinSqProofs.
Import ListNotations.
Local Open Scope R_scope.

Definition wf (s : osys) : Prop := (nob s <= noa s <= M s)%nat.

Lemma pairs_in : forall p0 p1 q0 q1 a i, In (a, i) (pairs (range p0 p1) (range q0 q1)) -> (p0 <= a < p1)%nat /\ (q0 <= i < q1)%nat.
Proof.
  intros p0 p1 q0 q1 a i H. unfold pairs, range in H. apply in_flat_map in H. destruct H as [p [Hp H]]. apply in_map_iff in H. destruct H as [q [E Hq]].
  inversion E; subst. apply in_seq in Hp. apply in_seq in Hq. lia.
Qed.
Lemma in_a : forall s a i, wf s -> In (a, i) (singles_a s) -> (noa s <= a < M s)%nat /\ (i < noa s)%nat.
Proof. intros s a i H I. apply pairs_in in I. unfold wf, nua in *. lia. Qed.
Lemma in_b : forall s a i, wf s -> In (a, i) (singles_b s) -> (nob s <= a < M s)%nat /\ (i < nob s)%nat.
Proof. intros s a i H I. apply pairs_in in I. unfold wf, nub in *. lia. Qed.
Lemma sa_all : forall s, wf s -> singles_a s = all_pairs (noa s) (M s) 0 (noa s).
Proof. intros s H. unfold singles_a, pairs, range, all_pairs, nua, wf in *. do 2 f_equal. lia. Qed.
Lemma sb_all : forall s, wf s -> singles_b s = all_pairs (nob s) (M s) 0 (nob s).
Proof. intros s H. unfold singles_b, pairs, range, all_pairs, nub, wf in *. do 2 f_equal. lia. Qed.
Lemma table_ext : forall {A B} (ks : list A) (ls : list B) (f : A -> B -> R) u v M,
  (forall k l, In k ks -> In l ls -> f k l = S2 M (u k) (v l)) -> table ks ls f = map (fun x => map (S2 M x) (map v ls)) (map u ks).
Proof.
  intros A B ks ls f u v M0 H. unfold table. rewrite map_map. apply map_ext_in. intros k Hk. rewrite map_map. apply map_ext_in. intros l Hl. now apply H.
Qed.
Lemma hcat_map : forall {A} (f g : A -> list R) l, hcat (map f l) (map g l) = map (fun x => f x ++ g x) l.
Proof. intros A f g l. unfold hcat. induction l as [|x l IH]; [reflexivity|]. cbn. now rewrite IH. Qed.

(** The matrix build_s2matrix_cis returns is the matrix of S^2 in the singly excited determinants, for closed and open shells. *)
Theorem C44_cis : forall s, wf s -> build_s2matrix_cis s = S2_matrix (M s) (kets_cis s).
Proof.
  intros s H. unfold build_s2matrix_cis, S2_matrix, kets_cis. rewrite <- sa_all, <- sb_all by assumption.
  rewrite (table_ext (singles_a s) (singles_a s) _ (ket_a s) (ket_a s) (M s)).
  2: { intros [a i] [b j] K L. apply in_a in K, L; try assumption. apply el_aa; tauto. }
  rewrite (table_ext (singles_a s) (singles_b s) _ (ket_a s) (ket_b s) (M s)).
  2: { intros [a i] [b j] K L. apply in_a in K; try assumption. apply in_b in L; try assumption. apply el_ab; tauto. }
  rewrite (table_ext (singles_b s) (singles_a s) _ (ket_b s) (ket_a s) (M s)).
  2: { intros [a i] [b j] K L. apply in_b in K; try assumption. apply in_a in L; try assumption. apply el_ab; tauto. }
  rewrite (table_ext (singles_b s) (singles_b s) _ (ket_b s) (ket_b s) (M s)).
  2: { intros [a i] [b j] K L. apply in_b in K, L; try assumption. apply el_bb; tauto. }
  rewrite !hcat_map, map_app. f_equal; apply map_ext; intro x; now rewrite map_app.
Qed.

(** ** Closed shells: singlets and triplets *)
Definition dot (x y : list R) : R := fold_right Rplus 0 (map (fun p => fst p * snd p) (combine x y)).
Definition matvec (m : list (list R)) (x : list R) : list R := map (fun r => dot r x) m.

Lemma dot_app : forall a b c d, length a = length c -> dot (a ++ b) (c ++ d) = dot a c + dot b d.
Proof.
  unfold dot. induction a as [|x a IH]; intros b c d L; destruct c as [|y c]; try discriminate L; cbn; [lra|].
  rewrite IH by (cbn in L; congruence). lra.
Qed.
Lemma NoDup_pairs : forall p0 p1 q0 q1, NoDup (pairs (range p0 p1) (range q0 q1)).
Proof.
  intros p0 p1 q0 q1. unfold pairs, range. generalize (p1 - p0)%nat. intro n. revert p0. induction n as [|n IH]; intros p0; [constructor|]. cbn.
  assert (A : forall (l1 l2 : list (nat * nat)), NoDup l1 -> NoDup l2 -> (forall x, In x l1 -> ~ In x l2) -> NoDup (l1 ++ l2)).
  { induction l1 as [|x l1 IH1]; intros l2 N1 N2 D; [exact N2|]. inversion N1; subst. cbn. constructor.
    - rewrite in_app_iff. intros [?|?]; [contradiction|]. apply (D x); [now left|assumption].
    - apply IH1; try assumption. intros y Hy. apply D. now right. }
  apply A; [|apply IH|].
  - apply FinFun.Injective_map_NoDup; [|apply seq_NoDup]. intros x y E. congruence.
  - intros [x y] H1 H2. apply in_map_iff in H1. destruct H1 as [q [E _]]. apply in_flat_map in H2. destruct H2 as [p [Hp H2]].
    apply in_map_iff in H2. destruct H2 as [q' [E' _]]. apply in_seq in Hp. inversion E; inversion E'; subst. lia.
Qed.
Lemma dot_delta : forall (ks : list (nat * nat)) (f : nat * nat -> R) (x : nat * nat -> R) k, NoDup ks -> In k ks ->
  (forall l, In l ks -> l <> k -> f l = 0) -> dot (map f ks) (map x ks) = f k * x k.
Proof.
  unfold dot. induction ks as [|l ks IH]; intros f x k N I H; [contradiction|]. inversion N; subst. cbn.
  destruct I as [->|I].
  - assert (Z : fold_right Rplus 0 (map (fun p => fst p * snd p) (combine (map f ks) (map x ks))) = 0); [|rewrite Z; lra].
    assert (Hz : forall l, In l ks -> f l = 0) by (intros l Hl; apply H; [now right|intros ->; contradiction]).
    clear -Hz. induction ks as [|l ks IH]; [reflexivity|]. cbn. rewrite (Hz l) by now left. rewrite IH; [lra|]. intros; apply Hz; now right.
  - rewrite (H l) by (try (now left); intros ->; contradiction). rewrite (IH f x k); [lra|assumption..|]. intros m Hm. apply H. now right.
Qed.
Lemma eqr2 : forall a i b j, eqr i j * eqr a b = if (if Nat.eq_dec a b then true else false) then (if Nat.eq_dec i j then 1 else 0) else 0.
Proof. intros. unfold eqr. destruct (Nat.eqb_spec i j), (Nat.eqb_spec a b), (Nat.eq_dec a b), (Nat.eq_dec i j); try contradiction; cbn; lra. Qed.

Lemma closed_apply : forall s (x y : nat * nat -> R), nob s = noa s -> (noa s <= M s)%nat ->
  matvec (build_s2matrix_cis s) (map x (singles_a s) ++ map y (singles_a s)) =
  map (fun k => x k - y k) (singles_a s) ++ map (fun k => y k - x k) (singles_a s).
Proof.
  intros s x y E L. assert (SB : singles_b s = singles_a s) by (unfold singles_a, singles_b, nua, nub; now rewrite E).
  assert (Z : get_sz2 s 0 = 0) by (unfold get_sz2; rewrite E; field).
  assert (PI : forall a i, In (a, i) (singles_a s) -> pi_alpha s a = 1 /\ chi_beta s i = 1).
  { intros a i I. apply pairs_in in I. unfold pi_alpha, chi_beta, nua in *. rewrite E.
    destruct (Nat.leb_spec (noa s) a), (Nat.ltb_spec a (M s - noa s + noa s)), (Nat.ltb_spec i (noa s)); try lia. split; reflexivity. }
  assert (ND : NoDup (singles_a s)) by apply NoDup_pairs.
  unfold build_s2matrix_cis. rewrite SB. unfold table. rewrite !hcat_map. unfold matvec. rewrite map_app, !map_map.
  f_equal; apply map_ext_in; intros [a i] Hk; rewrite dot_app by (now rewrite !map_length); destruct (PI a i Hk) as [P C].
  - rewrite !(dot_delta (singles_a s) _ _ (a, i)); try assumption.
    + rewrite Z, P, C. unfold eqr. rewrite !Nat.eqb_refl. cbn. lra.
    + intros [b j] _ N. unfold eqr. destruct (Nat.eqb_spec i j) as [->|]; cbn [b2r]; [destruct (Nat.eqb_spec a b) as [->|]; [contradiction|cbn; lra]|cbn; lra].
    + intros [b j] _ N. unfold eqr. destruct (Nat.eqb_spec i j) as [->|]; cbn [b2r]; [destruct (Nat.eqb_spec a b) as [->|]; [contradiction|cbn; lra]|cbn; lra].
  - rewrite !(dot_delta (singles_a s) _ _ (a, i)); try assumption.
    + rewrite Z, P, C. unfold eqr. rewrite !Nat.eqb_refl. cbn. lra.
    + intros [b j] _ N. unfold eqr. destruct (Nat.eqb_spec i j) as [->|]; cbn [b2r]; [destruct (Nat.eqb_spec a b) as [->|]; [contradiction|cbn; lra]|cbn; lra].
    + intros [b j] _ N. unfold eqr. destruct (Nat.eqb_spec i j) as [->|]; cbn [b2r]; [destruct (Nat.eqb_spec a b) as [->|]; [contradiction|cbn; lra]|cbn; lra].
Qed.

(** For a closed shell, the matrix annihilates every vector with equal alpha and beta amplitudes (singlets), doubles every vector with
    opposite ones (triplets), and has no other eigenvalue than 0 and 2.  Amplitudes are functions of the excitation (a, i). *)
Theorem C44_closed_shell : forall s, nob s = noa s -> (noa s <= M s)%nat ->
  let ks := all_pairs (noa s) (M s) 0 (noa s) in
  (forall x : nat * nat -> R, matvec (build_s2matrix_cis s) (map x ks ++ map x ks) = map (fun _ => 0) (ks ++ ks)) /\
  (forall x : nat * nat -> R, matvec (build_s2matrix_cis s) (map x ks ++ map (fun k => - x k) ks) = map (Rmult 2) (map x ks ++ map (fun k => - x k) ks)) /\
  (forall lambda (x y : nat * nat -> R), (exists k, In k ks /\ (x k <> 0 \/ y k <> 0)) ->
     matvec (build_s2matrix_cis s) (map x ks ++ map y ks) = map (Rmult lambda) (map x ks ++ map y ks) -> lambda = 0 \/ lambda = 2).
Proof.
  intros s E L ks. unfold ks. rewrite <- sa_all by (unfold wf; lia). clear ks. set (ks := singles_a s). split; [|split].
  - intro x. unfold ks. rewrite closed_apply by assumption. rewrite map_app. f_equal; apply map_ext; intro k; lra.
  - intro x. unfold ks. rewrite closed_apply by assumption. rewrite map_app, !map_map. f_equal; apply map_ext; intro k; lra.
  - intros lam x y [k [Hk N]] H. unfold ks in H. rewrite closed_apply in H by assumption. rewrite map_app, !map_map in H.
    assert (LN : forall (A B C D : list R), length A = length C -> A ++ B = C ++ D -> A = C /\ B = D).
    { induction A as [|a A IH]; intros B C D LL HH; destruct C as [|c C]; try discriminate LL; [auto|]. cbn in HH. inversion HH; subst.
      destruct (IH B C D) as [-> ->]; auto. }
    apply LN in H; [|now rewrite !map_length]. destruct H as [H1 H2].
    assert (PT : forall (f g : nat * nat -> R), map f ks = map g ks -> f k = g k).
    { intros f g HH. clear -Hk HH. induction ks as [|l ls IH]; [contradiction|]. cbn in HH. inversion HH. destruct Hk as [->|Hk]; auto. }
    assert (E1 := PT _ _ H1). assert (E2 := PT _ _ H2). cbv beta in E1, E2.
    destruct (Req_dec lam 0) as [->|Nl]; [now left|]. right.
    assert (S0 : lam * (x k + y k) = 0) by lra. apply Rmult_integral in S0. destruct S0 as [S0|S0]; [contradiction|].
    assert (Y : y k = - x k) by lra. rewrite Y in *.
    assert (X0 : x k <> 0) by (destruct N; [assumption|lra]). apply (Rmult_eq_reg_r (x k)); [lra|assumption].
Qed.

(** ** The symmetry-screened matrix of cis.py *)
Lemma pairs_seq : forall nu no, (0 < no)%nat -> pairs (range 0 nu) (range 0 no) = map (fun n => (n / no, n mod no)%nat) (seq 0 (nu * no)).
Proof.
  intros nu no L. unfold pairs, range. rewrite !Nat.sub_0_r. induction nu as [|nu IH]; [reflexivity|].
  rewrite seq_S, flat_map_app, IH. cbn [flat_map]. rewrite app_nil_r. replace (S nu * no)%nat with (nu * no + no)%nat by lia.
  rewrite seq_app, map_app. f_equal. cbn [Nat.add]. apply nth_ext with (d := (0, 0)%nat) (d' := (0, 0)%nat).
  - now rewrite !map_length, !seq_length.
  - intros n Hn. rewrite map_length, seq_length in Hn.
    rewrite (nth_indep _ _ ((fun q => (nu, q)) 0%nat)) by (now rewrite map_length, seq_length).
    rewrite (map_nth (fun q => (nu, q))). rewrite seq_nth by assumption.
    rewrite (nth_indep _ (0, 0)%nat ((fun n => (n / no, n mod no)%nat) 0%nat)) by (now rewrite map_length, seq_length).
    rewrite (map_nth (fun n => (n / no, n mod no)%nat)). rewrite seq_nth by assumption. cbn [Nat.add].
    rewrite Nat.add_comm, Nat.div_add, Nat.mod_add by lia. rewrite Nat.div_small, Nat.mod_small by lia. reflexivity.
Qed.
Lemma acc_app : forall u v I J, accumulated (u ++ v) I J = accumulated u I J + accumulated v I J.
Proof. induction u as [|[[x y] w] u IH]; intros v I J; cbn; [lra|]. rewrite IH. lra. Qed.
Lemma acc_none : forall u I J, (forall x y v, In (x, y, v) u -> x <> I) -> accumulated u I J = 0.
Proof.
  induction u as [|[[x y] w] u IH]; intros I J H; [reflexivity|]. cbn. rewrite IH by (intros; eapply H; right; eassumption).
  destruct (Nat.eqb_spec x I) as [->|]; [exfalso; eapply H; [now left|reflexivity]|]. cbn. lra.
Qed.
Lemma acc_seq : forall (g : nat -> list (nat * nat * R)) N I J, (forall n x y v, In (x, y, v) (g n) -> x = n) -> (I < N)%nat ->
  accumulated (flat_map g (seq 0 N)) I J = accumulated (g I) I J.
Proof.
  intros g N I J H L. assert (G : forall k m, (m <= I < m + k)%nat -> accumulated (flat_map g (seq m k)) I J = accumulated (g I) I J).
  { induction k as [|k IH]; intros m B; [lia|]. cbn [seq flat_map]. rewrite acc_app. destruct (Nat.eq_dec m I) as [->|Nm].
    - rewrite (acc_none (flat_map g (seq (S I) k))); [lra|]. intros x y v Hx. apply in_flat_map in Hx. destruct Hx as [n [Hn Hx]].
      apply in_seq in Hn. apply H in Hx. lia.
    - rewrite IH by lia. rewrite (acc_none (g m)); [lra|]. intros x y v Hx. apply H in Hx. lia. }
  apply G. lia.
Qed.

(** position n in the alpha (beta) block is the excitation (n / no + no, n mod no) *)
Definition exc_a (s : osys) (n : nat) : nat * nat := (n / noa s + noa s, n mod noa s)%nat.
Definition exc_b (s : osys) (n : nat) : nat * nat := (n / nob s + nob s, n mod nob s)%nat.
Lemma shifted : forall lo nu no, (0 < no)%nat -> pairs (range lo (lo + nu)) (range 0 no) = map (fun n => (n / no + lo, n mod no)%nat) (seq 0 (nu * no)).
Proof.
  intros lo nu no L. transitivity (map (fun k : nat * nat => (fst k + lo, snd k)%nat) (pairs (range 0 nu) (range 0 no))).
  - unfold pairs, range. replace (lo + nu - lo)%nat with nu by lia. rewrite !Nat.sub_0_r. clear L. revert lo. 
    assert (G : forall lo m, flat_map (fun p => map (fun q => (p, q)) (seq 0 no)) (seq (m + lo) nu) =
      map (fun k : nat * nat => (fst k + lo, snd k)%nat) (flat_map (fun p => map (fun q => (p, q)) (seq 0 no)) (seq m nu))); [|intro lo; apply (G lo 0%nat)].
    induction nu as [|nu IH]; intros lo m; [reflexivity|]. cbn [seq flat_map]. rewrite map_app. f_equal.
    + rewrite map_map. apply map_ext. intro q. reflexivity.
    + apply (IH lo (S m)).
  - rewrite pairs_seq by assumption. rewrite map_map. reflexivity.
Qed.
Lemma nth_table : forall {A B} (f : A -> B -> R) (da : A) (db : B) ks ls I J, (I < length ks)%nat -> (J < length ls)%nat ->
  nth J (nth I (table ks ls f) []) 0 = f (nth I ks da) (nth J ls db).
Proof.
  intros A B f da db ks ls I J LI LJ. unfold table. rewrite (nth_indep _ [] (map (f da) ls)) by (now rewrite map_length).
  rewrite (map_nth (fun k => map (f k) ls)). rewrite (nth_indep _ 0 (f (nth I ks da) db)) by (now rewrite map_length). apply map_nth.
Qed.
Lemma hcat_table : forall {A B C} (ks : list A) (ls : list B) (ms : list C) f g I J, (I < length ks)%nat ->
  nth J (nth I (hcat (table ks ls f) (table ks ms g)) []) 0 = if (J <? length ls)%nat then nth J (nth I (table ks ls f) []) 0 else nth (J - length ls) (nth I (table ks ms g) []) 0.
Proof.
  intros A B C ks ls ms f g I J L. unfold table. rewrite hcat_map. destruct ks as [|k0 ks']; [cbn in L; lia|].
  rewrite (nth_indep _ [] (map (f k0) ls ++ map (g k0) ms)) by (now rewrite map_length). rewrite (map_nth (fun k => map (f k) ls ++ map (g k) ms)).
  rewrite (nth_indep _ [] (map (f k0) ls)) by (now rewrite map_length). rewrite (map_nth (fun k => map (f k) ls)).
  rewrite (nth_indep (map (fun k => map (g k) ms) _) [] (map (g k0) ms)) by (now rewrite map_length). rewrite (map_nth (fun k => map (g k) ms)).
  destruct (Nat.ltb_spec J (length ls)); [apply app_nth1; now rewrite map_length|]. rewrite app_nth2 by (rewrite map_length; lia). now rewrite map_length.
Qed.
Lemma len_hcat : forall {A B C} (ks : list A) (ls : list B) (ms : list C) f g, length (hcat (table ks ls f) (table ks ms g)) = length ks.
Proof. intros. unfold table. now rewrite hcat_map, map_length. Qed.
Lemma flat_map_map : forall {A B C} (f : B -> list C) (g : A -> B) l, flat_map f (map g l) = flat_map (fun x => f (g x)) l.
Proof. intros A B C f g l. induction l as [|x l IH]; [reflexivity|]. cbn. now rewrite IH. Qed.
Ltac Zify.zify_post_hook ::= idtac.
Lemma dm : forall n no, (n / no * no + n mod no = n)%nat.
Proof. intros n no. destruct no as [|no]; [cbn; lia|]. rewrite Nat.mul_comm. symmetry. apply Nat.div_mod. lia. Qed.
Lemma dm_inj : forall n m no, (n / no = m / no)%nat -> (n mod no = m mod no)%nat -> n = m.
Proof. intros n m no H1 H2. rewrite <- (dm n no), <- (dm m no). congruence. Qed.
Lemma lt_pos : forall I nu no, (I < nu * no)%nat -> (0 < no)%nat.
Proof. intros I nu no H. destruct no; lia. Qed.

Lemma eqr_dm : forall I J no lo, eqr (I mod no) (J mod no) * eqr (I / no + lo) (J / no + lo) = b2r (I =? J)%nat.
Proof.
  intros I J no lo. unfold eqr. destruct (Nat.eqb_spec I J) as [->|N]; [rewrite !Nat.eqb_refl; cbn [b2r]; lra|].
  cbn [b2r].
  destruct (Nat.eqb_spec (I mod no) (J mod no)) as [E1|]; [|cbn [b2r]; lra]. destruct (Nat.eqb_spec (I / no + lo) (J / no + lo)) as [E2|]; [|cbn [b2r]; lra].
  exfalso. apply N. apply Nat.add_cancel_r in E2. now apply (dm_inj I J no).
Qed.

Lemma blk_aa : forall s sym I J, (I < nua s * noa s)%nat -> (J < nua s * noa s)%nat ->
  accumulated (cis_aa s sym) I J = if sym (fst (exc_a s I)) (snd (exc_a s I)) && sym (fst (exc_a s J)) (snd (exc_a s J)) then
    (get_sz2 s 0 + 1 * chi_beta s (snd (exc_a s I))) * eqr (snd (exc_a s I)) (snd (exc_a s J)) * eqr (fst (exc_a s I)) (fst (exc_a s J)) else 0.
Proof.
  intros s sym I J LI LJ. assert (P := lt_pos _ _ _ LI). unfold cis_aa. rewrite pairs_seq, flat_map_map by assumption.
  rewrite acc_seq; [|intros n x y v H; cbv zeta beta in H; unfold idx_a in H; destruct (sym _ _); [|contradiction]; cbn [Nat.eqb In] in H; rewrite dm in H; destruct H as [H|[]]; inversion H; lia|assumption].
  cbv zeta beta. unfold idx_a, exc_a; cbn [fst snd]. rewrite Rmult_assoc, eqr_dm.
  destruct (sym (I / noa s + noa s)%nat (I mod noa s)%nat) eqn:EI; [|reflexivity]. cbn [Nat.eqb andb]. rewrite dm. cbn [accumulated].
  replace (S I - 1)%nat with I by lia. rewrite Nat.eqb_refl. cbn [andb].
  destruct (Nat.eqb_spec I J) as [<-|N]; cbn [b2r]; [rewrite EI; lra|]. clear EI. destruct (sym _ _); lra.
Qed.
Lemma blk_bb : forall s sym I J, (I < nub s * nob s)%nat -> (J < nub s * nob s)%nat ->
  accumulated (cis_bb s sym) I J = if sym (fst (exc_b s I)) (snd (exc_b s I)) && sym (fst (exc_b s J)) (snd (exc_b s J)) then
    (get_sz2 s 0 + 1 * pi_alpha s (fst (exc_b s I))) * eqr (snd (exc_b s I)) (snd (exc_b s J)) * eqr (fst (exc_b s I)) (fst (exc_b s J)) else 0.
Proof.
  intros s sym I J LI LJ. assert (P := lt_pos _ _ _ LI). unfold cis_bb. rewrite pairs_seq, flat_map_map by assumption.
  rewrite acc_seq; [|intros n x y v H; cbv zeta beta in H; unfold idx_b in H; destruct (sym _ _); [|contradiction]; cbn [Nat.eqb In] in H; rewrite dm in H; destruct H as [H|[]]; inversion H; lia|assumption].
  cbv zeta beta. unfold idx_b, exc_b; cbn [fst snd]. rewrite Rmult_assoc, eqr_dm.
  destruct (sym (I / nob s + nob s)%nat (I mod nob s)%nat) eqn:EI; [|reflexivity]. cbn [Nat.eqb andb]. rewrite dm. cbn [accumulated].
  replace (S I - 1)%nat with I by lia. rewrite Nat.eqb_refl. cbn [andb].
  destruct (Nat.eqb_spec I J) as [<-|N]; cbn [b2r]; [rewrite EI; lra|]. clear EI. destruct (sym _ _); lra.
Qed.
Lemma blk_ab : forall s sym I J, wf s -> (I < nua s * noa s)%nat -> (J < nub s * nob s)%nat ->
  accumulated (cis_ab s sym) I J = if sym (fst (exc_a s I)) (snd (exc_a s I)) && sym (fst (exc_b s J)) (snd (exc_b s J)) then
    - (1) * eqr (snd (exc_a s I)) (snd (exc_b s J)) * eqr (fst (exc_a s I)) (fst (exc_b s J)) else 0.
Proof.
  intros s sym I J W LI LJ. assert (P := lt_pos _ _ _ LI). assert (Q := lt_pos _ _ _ LJ). unfold wf in W. unfold cis_ab. rewrite pairs_seq, flat_map_map by assumption.
  rewrite acc_seq; [|intros n x y v H; cbv zeta beta in H; unfold idx_a in H; destruct (sym _ _); [|contradiction]; cbn [Nat.eqb In] in H; rewrite dm in H;
    destruct (n mod noa s <? nob s)%nat; [|contradiction]; destruct (_ =? 0)%nat; [contradiction|]; destruct H as [H|[]]; inversion H; lia|assumption].
  cbv zeta beta. unfold idx_a, idx_b, exc_a, exc_b; cbn [fst snd].
  destruct (sym (I / noa s + noa s)%nat (I mod noa s)%nat) eqn:EI; [|reflexivity]. cbn [Nat.eqb andb]. rewrite dm.
  replace (I / noa s + (noa s - nob s) + nob s)%nat with (I / noa s + noa s)%nat by lia. rewrite EI. cbn [Nat.eqb]. unfold eqr.
  assert (MJ := Nat.mod_upper_bound J (nob s) ltac:(lia)). replace (S I - 1)%nat with I by lia.
  destruct (Nat.ltb_spec (I mod noa s) (nob s)) as [L|L].
  - cbn [accumulated]. rewrite Nat.eqb_refl. cbn [andb]. set (pos := ((I / noa s + (noa s - nob s)) * nob s + I mod noa s)%nat).
    replace (S pos - 1)%nat with pos by lia.
    assert (P1 : (pos / nob s = I / noa s + (noa s - nob s))%nat) by (unfold pos; rewrite Nat.add_comm, Nat.div_add by lia; rewrite Nat.div_small by lia; reflexivity).
    assert (P2 : (pos mod nob s = I mod noa s)%nat) by (unfold pos; rewrite Nat.add_comm, Nat.mod_add by lia; apply Nat.mod_small; lia).
    destruct (Nat.eqb_spec pos J) as [<-|N].
    + rewrite P1, P2. replace (I / noa s + (noa s - nob s) + nob s)%nat with (I / noa s + noa s)%nat by lia. rewrite EI, !Nat.eqb_refl. cbn [b2r]. lra.
    + destruct (sym (J / nob s + nob s)%nat (J mod nob s)%nat); [|lra].
      destruct (Nat.eqb_spec (I mod noa s) (J mod nob s)); [|cbn [b2r]; lra]. destruct (Nat.eqb_spec (I / noa s + noa s) (J / nob s + nob s)); [|cbn [b2r]; lra].
      exfalso. apply N. apply (dm_inj pos J (nob s)); lia.
  - cbn [accumulated]. destruct (Nat.eqb_spec (I mod noa s) (J mod nob s)); [lia|]. destruct (sym (J / nob s + nob s)%nat (J mod nob s)%nat); cbn [b2r]; lra.
Qed.

Lemma nth_sa : forall s I, (I < nua s * noa s)%nat -> nth I (singles_a s) (0, 0)%nat = exc_a s I.
Proof.
  intros s I L. assert (P := lt_pos _ _ _ L). unfold singles_a. rewrite shifted by assumption.
  rewrite (nth_indep _ _ ((fun n => (n / noa s + noa s, n mod noa s)%nat) 0%nat)) by (now rewrite map_length, seq_length).
  rewrite (map_nth (fun n => (n / noa s + noa s, n mod noa s)%nat)). rewrite seq_nth by assumption. reflexivity.
Qed.
Lemma nth_sb : forall s I, (I < nub s * nob s)%nat -> nth I (singles_b s) (0, 0)%nat = exc_b s I.
Proof.
  intros s I L. assert (P := lt_pos _ _ _ L). unfold singles_b. rewrite shifted by assumption.
  rewrite (nth_indep _ _ ((fun n => (n / nob s + nob s, n mod nob s)%nat) 0%nat)) by (now rewrite map_length, seq_length).
  rewrite (map_nth (fun n => (n / nob s + nob s, n mod nob s)%nat)). rewrite seq_nth by assumption. reflexivity.
Qed.
Lemma len_pairs : forall ps qs, length (pairs ps qs) = (length ps * length qs)%nat.
Proof. intros ps qs. unfold pairs. induction ps as [|p ps IH]; [reflexivity|]. cbn. rewrite app_length, map_length, IH. reflexivity. Qed.
Lemma len_sa : forall s, length (singles_a s) = (nua s * noa s)%nat.
Proof. intro s. unfold singles_a, range. rewrite len_pairs, !seq_length. f_equal; lia. Qed.
Lemma len_sb : forall s, length (singles_b s) = (nub s * nob s)%nat.
Proof. intro s. unfold singles_b, range. rewrite len_pairs, !seq_length. f_equal; lia. Qed.

(** The excitation at position n of the vector: alpha excitations first, the hole running fastest. *)
Definition excitation_at (s : osys) (n : nat) : nat * nat :=
  let na := ((M s - noa s) * noa s)%nat in
  if (n <? na)%nat then (n / noa s + noa s, n mod noa s)%nat else ((n - na) / nob s + nob s, (n - na) mod nob s)%nat.

(** With symmetry, the matrix cis.py builds is the matrix of build_s2matrix_cis with the rows and columns of the excitations of other
    symmetries set to zero. *)
Theorem C44_symmetry : forall s sym I J, wf s -> let n := ((M s - noa s) * noa s + (M s - nob s) * nob s)%nat in (I < n)%nat -> (J < n)%nat ->
  let ok K := sym (fst (excitation_at s K)) (snd (excitation_at s K)) in
  build_s2matrix s sym I J = if ok I && ok J then entry (build_s2matrix_cis s) I J else 0.
Proof.
  intros s sym I J W n LI LJ ok. unfold n in LI, LJ. clear n. fold (nua s) in LI, LJ. fold (nub s) in LI, LJ. unfold build_s2matrix, ok, excitation_at, entry, build_s2matrix_cis. clear ok.
  fold (nua s). cbv zeta. set (na := (nua s * noa s)%nat) in *. cbv zeta in *.
  assert (PA : forall K, (K < na)%nat -> pi_alpha s (fst (exc_a s K)) = 1).
  { intros K HK. unfold pi_alpha, exc_a; cbn [fst].
    assert (HD : (K / noa s < nua s)%nat) by (apply Nat.div_lt_upper_bound; [assert (X := lt_pos _ _ _ HK); lia|rewrite Nat.mul_comm; exact HK]).
    revert HD. generalize (K / noa s)%nat. intros d HD.
    destruct (Nat.leb_spec (noa s) (d + noa s)), (Nat.ltb_spec (d + noa s) (nua s + noa s)); try lia; reflexivity. }
  assert (CB : forall K, (K < nub s * nob s)%nat -> chi_beta s (snd (exc_b s K)) = 1).
  { intros K HK. unfold chi_beta, exc_b; cbn [snd]. assert (X := lt_pos _ _ _ HK). assert (Y := Nat.mod_upper_bound K (nob s) ltac:(lia)).
    destruct (Nat.ltb_spec (K mod nob s) (nob s)); [reflexivity|lia]. }
  destruct (Nat.ltb_spec I na) as [HI|HI].
  - rewrite app_nth1 by (rewrite len_hcat, len_sa; exact HI). rewrite hcat_table by (rewrite len_sa; exact HI). rewrite len_sa. fold na.
    destruct (Nat.ltb_spec J na) as [HJ|HJ].
    + rewrite (nth_table _ (0, 0)%nat (0, 0)%nat) by (rewrite len_sa; assumption). rewrite !nth_sa by assumption.
      rewrite blk_aa by assumption. reflexivity.
    + rewrite (nth_table _ (0, 0)%nat (0, 0)%nat) by (rewrite ?len_sa, ?len_sb; unfold na in *; lia). rewrite nth_sa, nth_sb by (unfold na in *; lia).
      rewrite blk_ab by (try assumption; unfold na in *; lia). assert (CI := CB (J - na)%nat ltac:(lia)). assert (PI := PA I HI).
      unfold exc_a, exc_b in *. cbn [fst snd] in *.
      destruct (sym _ _); [|reflexivity]. cbn [andb]. destruct (sym _ _); [|reflexivity]. rewrite PI.
      unfold eqr. destruct (Nat.eqb_spec (I mod noa s) ((J - na) mod nob s)) as [->|]; [rewrite CI|]; cbn [b2r]; lra.
  - rewrite app_nth2 by (rewrite len_hcat, len_sa; exact HI). rewrite len_hcat, len_sa. fold na. rewrite hcat_table by (rewrite len_sb; lia). rewrite len_sa. fold na.
    destruct (Nat.ltb_spec J na) as [HJ|HJ].
    + rewrite (nth_table _ (0, 0)%nat (0, 0)%nat) by (rewrite ?len_sa, ?len_sb; unfold na in *; lia). rewrite nth_sa, nth_sb by (unfold na in *; lia).
      rewrite blk_ab by (try assumption; unfold na in *; lia). assert (CI := CB (I - na)%nat ltac:(lia)). assert (PI := PA J HJ).
      unfold exc_a, exc_b in *. cbn [fst snd] in *. rewrite andb_comm.
      destruct (sym _ _); [|reflexivity]. cbn [andb]. destruct (sym _ _); [|reflexivity]. rewrite CI.
      unfold eqr. rewrite (Nat.eqb_sym ((I - na) mod nob s)), (Nat.eqb_sym ((I - na) / nob s + nob s)).
      destruct (Nat.eqb_spec (J / noa s + noa s) ((I - na) / nob s + nob s)) as [<-|]; [rewrite PI|]; cbn [b2r]; lra.
    + rewrite (nth_table _ (0, 0)%nat (0, 0)%nat) by (rewrite len_sb; lia). rewrite !nth_sb by lia. rewrite blk_bb by lia. reflexivity.
Qed.

(** ** Ionised, attached and spin-flipped determinants *)
Lemma tab_S2 : forall {A} (ket : A -> vec) M (ks : list A) f, (forall k l, In k ks -> In l ks -> f k l = S2 M (ket k) (ket l)) ->
  table ks ks f = S2_matrix M (map ket ks).
Proof. intros A ket M0 ks f H. unfold S2_matrix. now apply table_ext. Qed.
Lemma tab_eq : forall {A} (ks : list A) f g, (forall k l, In k ks -> In l ks -> f k l = g k l) -> table ks ks f = table ks ks g.
Proof. intros A ks f g H. unfold table. apply map_ext_in. intros k K. apply map_ext_in. intros l L. now apply H. Qed.

(** One-hole guesses: the matrix of S^2 in the determinants with one alpha electron removed. *)
Theorem C44_one_hole : forall s, wf s -> build_s2matrix_1h s = S2_matrix (M s) (map (ket_1h s) (seq 0 (noa s))).
Proof.
  intros s W. unfold build_s2matrix_1h, range. rewrite Nat.sub_0_r. apply tab_S2. intros i j Hi Hj. apply in_seq in Hi, Hj. apply el_1h; [exact W|lia..].
Qed.

(** One-particle guesses: every diagonal entry is too small by the number of singly occupied orbitals; the matrix is right for closed shells. *)
Theorem C44_one_particle : forall s, wf s -> let ps := seq (noa s) (M s - noa s) in
  S2_matrix (M s) (map (ket_1p s) ps) = map (fun a => map (fun b => entry (build_s2matrix_1p s) (a - noa s) (b - noa s) + (if (a =? b)%nat then INR (noa s - nob s) else 0)) ps) ps /\
  (nob s = noa s -> build_s2matrix_1p s = S2_matrix (M s) (map (ket_1p s) ps)).
Proof.
  intros s W ps. assert (EL := el_1p s W). unfold wf in W. split.
  - unfold S2_matrix, ps. rewrite map_map. apply map_ext_in. intros a Ha. rewrite map_map. apply map_ext_in. intros b Hb. apply in_seq in Ha, Hb.
    unfold entry, build_s2matrix_1p, range, nua. rewrite (nth_table _ 0%nat 0%nat) by (rewrite seq_length; lia).
    rewrite !seq_nth by lia. replace (noa s + (a - noa s))%nat with a by lia. replace (noa s + (b - noa s))%nat with b by lia.
    rewrite <- EL by lia. unfold eqr. destruct (a =? b)%nat; cbn [b2r]; lra.
  - intro E. unfold build_s2matrix_1p, ps, range, nua. replace (noa s + (M s - noa s) - noa s)%nat with (M s - noa s)%nat by lia.
    apply tab_S2. intros a b Ha Hb. apply in_seq in Ha, Hb. rewrite <- EL by lia. rewrite E, Nat.sub_diag. cbn [INR]. lra.
Qed.
(** So for a doublet reference (one electron in orbital 0) the value for the triplet obtained by attaching an alpha electron is 1, not 2. *)
Theorem C44_one_particle_refuted : let s := mkOsys 1 0 2 in
  build_s2matrix_1p s = [[1]] /\ S2_matrix (M s) (map (ket_1p s) [1%nat]) = [[2]].
Proof.
  split.
  - cbv -[IZR Rplus Rmult Rminus Ropp Rdiv Rinv]. do 2 f_equal. lra.
  - destruct (C44_one_particle (mkOsys 1 0 2)) as [H _]; [unfold wf; cbn; lia|]. cbn [noa nob M seq Nat.sub] in H. etransitivity; [exact H|].
    cbv -[IZR Rplus Rmult Rminus Ropp Rdiv Rinv]. do 2 f_equal. lra.
Qed.

Definition active_2p (s : osys) (na nb : nat) := all_pairs (noa s) (noa s + na) (nob s) (nob s + nb).
Definition active_2h (s : osys) (na nb : nat) := all_pairs (noa s - na) (noa s) (nob s - nb) (nob s).

(** Two-particle guesses: right for closed shells; in general every diagonal entry whose beta particle is a singly occupied orbital
    is too large by 1. *)
Theorem C44_two_particles : forall s na nb, wf s -> (noa s + na <= M s)%nat -> (nob s + nb <= M s)%nat -> let ks := active_2p s na nb in
  build_s2matrix_2p s na nb = map (fun k => map (fun l => S2 (M s) (ket_2p s k) (ket_2p s l) +
    (if (snd k <? noa s)%nat then if (fst k =? fst l)%nat && (snd k =? snd l)%nat then 1 else 0 else 0)) ks) ks /\
  (nob s = noa s -> build_s2matrix_2p s na nb = S2_matrix (M s) (map (ket_2p s) ks)).
Proof.
  intros s na nb W LA LB ks. assert (EL := el_2p s W). unfold wf in W.
  assert (IN : forall k, In k ks -> (noa s <= fst k < M s)%nat /\ (nob s <= snd k < M s)%nat).
  { intros [a b] H. apply (pairs_in (noa s) (noa s + na) (nob s) (nob s + nb)) in H. cbn. lia. }
  assert (A : build_s2matrix_2p s na nb = map (fun k => map (fun l => S2 (M s) (ket_2p s k) (ket_2p s l) +
    (if (snd k <? noa s)%nat then if (fst k =? fst l)%nat && (snd k =? snd l)%nat then 1 else 0 else 0)) ks) ks).
  { unfold build_s2matrix_2p. change (pairs_2p s na nb) with ks. unfold table. apply map_ext_in. intros [a b] K. apply map_ext_in. intros [c d] L.
    apply IN in K, L. cbn [fst snd] in *. rewrite <- EL by lia. unfold eqr.
    assert (PB : pi_alpha s b = if (b <? noa s)%nat then 0 else 1).
    { unfold pi_alpha, nua. destruct (Nat.leb_spec (noa s) b), (Nat.ltb_spec b (M s - noa s + noa s)), (Nat.ltb_spec b (noa s)); try lia; reflexivity. }
    rewrite PB. destruct (Nat.ltb_spec b (noa s)); destruct (a =? c)%nat, (b =? d)%nat; cbn [b2r andb]; lra. }
  split; [exact A|]. intro E. rewrite A. unfold S2_matrix. rewrite map_map. apply map_ext_in. intros k K. rewrite map_map. apply map_ext_in. intros l L.
  apply IN in K. destruct (Nat.ltb_spec (snd k) (noa s)); [lia|]. lra.
Qed.
(** A doublet reference: attaching an alpha electron to orbital 1 and a beta electron to orbital 0 leaves orbital 0 doubly
    occupied; this is a doublet (3/4), and the code says 7/4. *)
Theorem C44_two_particles_refuted : let s := mkOsys 1 0 2 in
  build_s2matrix_2p s 1 1 = [[7 / 4]] /\ S2_matrix (M s) (map (ket_2p s) (active_2p s 1 1)) = [[3 / 4]].
Proof.
  split.
  - cbv -[IZR Rplus Rmult Rminus Ropp Rdiv Rinv]. do 2 f_equal. lra.
  - cbn [active_2p all_pairs seq noa nob M Nat.sub Nat.add flat_map map app S2_matrix]. do 2 f_equal.
    rewrite <- (el_2p (mkOsys 1 0 2)) by (cbn; lia). cbv -[IZR Rplus Rmult Rminus Ropp Rdiv Rinv]. lra.
Qed.

(** Two-hole guesses: right for closed shells; in general the diagonal lacks Sz (Sz + 1), and is too large by 1 where the alpha
    hole is a singly occupied orbital. *)
Theorem C44_two_holes : forall s na nb, wf s -> (na <= noa s)%nat -> (nb <= nob s)%nat -> let ks := active_2h s na nb in
  let sz := (INR (noa s) - INR (nob s)) / 2 in
  build_s2matrix_2h s na nb = map (fun k => map (fun l => S2 (M s) (ket_2h s k) (ket_2h s l) -
    (if (fst k =? fst l)%nat && (snd k =? snd l)%nat then sz * (sz + 1) - (if (fst k <? nob s)%nat then 0 else 1) else 0)) ks) ks /\
  (nob s = noa s -> build_s2matrix_2h s na nb = S2_matrix (M s) (map (ket_2h s) ks)).
Proof.
  intros s na nb W LA LB ks sz. assert (EL := el_2h s W). unfold wf in W.
  assert (IN : forall k, In k ks -> (fst k < noa s)%nat /\ (snd k < nob s)%nat).
  { intros [i j] H. apply (pairs_in (noa s - na) (noa s) (nob s - nb) (nob s)) in H. cbn. lia. }
  assert (A : build_s2matrix_2h s na nb = map (fun k => map (fun l => S2 (M s) (ket_2h s k) (ket_2h s l) -
    (if (fst k =? fst l)%nat && (snd k =? snd l)%nat then sz * (sz + 1) - (if (fst k <? nob s)%nat then 0 else 1) else 0)) ks) ks).
  { unfold build_s2matrix_2h. change (pairs_2h s na nb) with ks. unfold table. apply map_ext_in. intros [i j] K. apply map_ext_in. intros [m n] L.
    apply IN in K, L. cbn [fst snd] in *. rewrite <- EL by lia. rewrite (sz2_msz s). change (msz s) with sz. unfold eqr, chi_beta.
    destruct (i <? nob s)%nat, (i =? m)%nat, (j =? n)%nat; cbn [b2r andb]; lra. }
  split; [exact A|]. intro E. rewrite A. unfold S2_matrix. rewrite map_map. apply map_ext_in. intros k K. rewrite map_map. apply map_ext_in. intros l L.
  apply IN in K. destruct (Nat.ltb_spec (fst k) (nob s)); [|lia]. unfold sz. rewrite E. destruct (_ && _)%bool; lra.
Qed.
Theorem C44_two_holes_refuted : let s := mkOsys 2 1 2 in
  build_s2matrix_2h s 1 1 = [[1]] /\ S2_matrix (M s) (map (ket_2h s) (active_2h s 1 1)) = [[3 / 4]].
Proof.
  split.
  - cbv -[IZR Rplus Rmult Rminus Ropp Rdiv Rinv]. do 2 f_equal. lra.
  - cbn [active_2h all_pairs seq noa nob M Nat.sub Nat.add flat_map map app S2_matrix]. do 2 f_equal.
    rewrite <- (el_2h (mkOsys 2 1 2)) by (cbn; lia). cbv -[IZR Rplus Rmult Rminus Ropp Rdiv Rinv]. lra.
Qed.

(** Spin-flip guesses (Ms = -1): right on the open-shell block (hole and particle both singly occupied); elsewhere the diagonal
    lacks 1 for a hole in a doubly occupied orbital and 1 for a particle in an empty one. *)
Theorem C44_spin_flip : forall s, wf s -> let ks := all_pairs (nob s) (M s) 0 (noa s) in
  build_s2matrix_sfcis s (-1) = map (fun k => map (fun l => S2 (M s) (ket_sf s k) (ket_sf s l) -
    (if (fst k =? fst l)%nat && (snd k =? snd l)%nat then (if (snd k <? nob s)%nat then 1 else 0) + (if (noa s <=? fst k)%nat then 1 else 0) else 0)) ks) ks.
Proof.
  intros s W ks. assert (EL := el_sf s W). unfold wf in W. unfold build_s2matrix_sfcis.
  assert (K0 : singles_sf s = ks) by (unfold singles_sf, ks, pairs, range, all_pairs, nub; do 2 f_equal; lia). rewrite K0. unfold table.
  assert (IN : forall k, In k ks -> (nob s <= fst k < M s)%nat /\ (snd k < noa s)%nat).
  { intros [a i] H. apply (pairs_in (nob s) (M s) 0 (noa s)) in H. cbn. lia. }
  apply map_ext_in. intros [a i] K. apply map_ext_in. intros [b j] L. apply IN in K, L. cbn [fst snd] in *. rewrite <- EL by lia.
  assert (PA : pi_alpha s a = if (noa s <=? a)%nat then 1 else 0).
  { unfold pi_alpha, nua. destruct (Nat.leb_spec (noa s) a), (Nat.ltb_spec a (M s - noa s + noa s)); try lia; reflexivity. }
  rewrite PA. unfold eqr, chi_beta. destruct (i <? nob s)%nat, (noa s <=? a)%nat, (a =? b)%nat, (i =? j)%nat; cbn [b2r andb]; lra.
Qed.
(** A triplet reference with one doubly occupied orbital (0), two singly occupied ones (1, 2) and an empty one (3): flipping the
    spin of an electron while moving it from 0 to 3 gives a determinant with <S^2> = 2, and the code says 0. *)
Theorem C44_spin_flip_refuted : let s := mkOsys 3 1 4 in
  entry (build_s2matrix_sfcis s (-1)) 6 6 = 0 /\ nth 6 (singles_sf s) (0, 0)%nat = (3, 0)%nat /\
  S2 (M s) (ket_sf s (3, 0)%nat) (ket_sf s (3, 0)%nat) = 2.
Proof.
  split; [|split].
  - cbv -[IZR Rplus Rmult Rminus Ropp Rdiv Rinv]. lra.
  - reflexivity.
  - rewrite <- (el_sf (mkOsys 3 1 4)) by (cbn; lia). cbv -[IZR Rplus Rmult Rminus Ropp Rdiv Rinv]. lra.
Qed.

(** A system with two alpha and one beta electron in three orbitals: two excitations of either kind. *)
Example C44_instance : let s := mkOsys 2 1 3 in wf s /\ length (kets_cis s) = 4%nat /\
  build_s2matrix_cis s = [[7 / 4; 0; 0; -1]; [0; 3 / 4; 0; 0]; [0; 0; 3 / 4; 0]; [-1; 0; 0; 7 / 4]].
Proof.
  split; [unfold wf; cbn; lia|split; [reflexivity|]]. cbv -[IZR Rplus Rmult Rminus Ropp Rdiv Rinv].
  repeat (f_equal; try lra).
Qed.
Example C44_instance_closed : let s := mkOsys 2 2 4 in nob s = noa s /\ (noa s <= M s)%nat /\ length (all_pairs (noa s) (M s) 0 (noa s)) = 4%nat.
Proof. cbn. repeat split; lia. Qed.
Example C44_instance_active : let s := mkOsys 2 1 4 in wf s /\ length (active_2p s 2 2) = 4%nat /\ length (active_2h s 2 1) = 2%nat.
Proof. unfold wf. cbn. repeat split; lia. Qed.

Print Assumptions C44_cis.
Print Assumptions C44_closed_shell.
Print Assumptions C44_symmetry.
Print Assumptions C44_one_hole.
Print Assumptions C44_one_particle.
Print Assumptions C44_two_particles.
Print Assumptions C44_two_holes.
Print Assumptions C44_spin_flip.
