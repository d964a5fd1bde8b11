(** Rational integrals and amplitudes: the programs evaluated in Q, for the cases shown beside theorems (proof support). *)
From Coq Require Import Reals Arith NArith List Bool Lia Lra QArith Qreals ZArith.
From Verif Require Import RSum IntegralsModel TensorObjs TensorAlg TensorSpec CcsdModel CcsdReify CcsdUpdate CcsdProps FockSpec FockArrays FockCcSpec FockTerms FockCheck FockSectorTools.
Import ListNotations.
Local Open Scope Q_scope.
Fixpoint qsum (n : nat) (f : nat -> Q) : Q := match n with O => 0 | S n => Qred (qsum n f + f n) end.
Lemma qsum_ok n f : Q2R (qsum n f) = sumn n (fun k => Q2R (f k)).
Proof. induction n as [|n IH]; cbn [qsum sumn]; [unfold Q2R; cbn; lra|]. rewrite (Qeq_eqR _ _ (Qred_correct _)), Q2R_plus, IH. reflexivity. Qed.
Record qints := mkQ { q_a : nat -> nat -> Q; q_b : nat -> nat -> Q; q_aa : nat -> nat -> nat -> nat -> Q; q_ab : nat -> nat -> nat -> nat -> Q; q_bb : nat -> nat -> nat -> nat -> Q }.
Definition real (I : qints) : integrals := mkIntegrals (fun p q => Q2R (q_a I p q)) (fun p q => Q2R (q_b I p q)) (fun p q r s => Q2R (q_aa I p q r s)) (fun p q r s => Q2R (q_ab I p q r s)) (fun p q r s => Q2R (q_bb I p q r s)).
Record qamps := mkQa { qt_a : nat -> nat -> Q; qt_b : nat -> nat -> Q; qt_aa : nat -> nat -> nat -> nat -> Q; qt_ab : nat -> nat -> nat -> nat -> Q; qt_bb : nat -> nat -> nat -> nat -> Q }.
Definition reala (T : qamps) : amps := mkAmps (fun p q => Q2R (qt_a T p q)) (fun p q => Q2R (qt_b T p q)) (fun p q r s => Q2R (qt_aa T p q r s)) (fun p q r s => Q2R (qt_ab T p q r s)) (fun p q r s => Q2R (qt_bb T p q r s))
  (fun _ _ _ _ _ _ => 0%R) (fun _ _ _ _ _ _ => 0%R) (fun _ _ _ _ _ _ => 0%R) (fun _ _ _ _ _ _ => 0%R).
Definition fockq_a (na nb : nat) (I : qints) (p q : nat) : Q := Qred (q_a I p q + qsum na (fun k => q_aa I p k q k - q_aa I p k k q) + qsum nb (fun k => q_ab I p k q k)).
Definition fockq_b (na nb : nat) (I : qints) (p q : nat) : Q := Qred (q_b I p q + qsum na (fun k => q_ab I k p k q) + qsum nb (fun k => q_bb I p k q k - q_bb I p k k q)).
Definition antiq_aa (I : qints) p q r s : Q := Qred (q_aa I p q r s - q_aa I p q s r).
Definition antiq_bb (I : qints) p q r s : Q := Qred (q_bb I p q r s - q_bb I p q s r).
Definition qp2 (f : nat -> nat -> Q) (l : list nat) : Q := match l with [a; b] => f a b | _ => 0 end.
Definition qp4 (f : nat -> nat -> nat -> nat -> Q) (l : list nat) : Q := match l with [a; b; c; d] => f a b c d | _ => 0 end.
Definition qarrays (na nb : nat) (I : qints) (T : qamps) : list (list nat -> Q) :=
  [qp2 (qt_a T); qp2 (qt_b T); qp4 (qt_aa T); qp4 (qt_ab T); qp4 (qt_bb T); (fun _ => 0); (fun _ => 0); (fun _ => 0); (fun _ => 0);
   qp2 (fun p q => fockq_a na nb I p q);
   qp2 (fun p q => fockq_a na nb I p (na + q)%nat);
   qp2 (fun p q => fockq_a na nb I (na + p)%nat q);
   qp2 (fun p q => fockq_a na nb I (na + p)%nat (na + q)%nat);
   qp2 (fun p q => fockq_b na nb I p q);
   qp2 (fun p q => fockq_b na nb I p (nb + q)%nat);
   qp2 (fun p q => fockq_b na nb I (nb + p)%nat q);
   qp2 (fun p q => fockq_b na nb I (nb + p)%nat (nb + q)%nat);
   qp4 (fun p q r s => antiq_aa I p q r s);
   qp4 (fun p q r s => antiq_aa I p q r (na + s)%nat);
   qp4 (fun p q r s => antiq_aa I p q (na + r)%nat s);
   qp4 (fun p q r s => antiq_aa I p q (na + r)%nat (na + s)%nat);
   qp4 (fun p q r s => antiq_aa I p (na + q)%nat r s);
   qp4 (fun p q r s => antiq_aa I p (na + q)%nat r (na + s)%nat);
   qp4 (fun p q r s => antiq_aa I p (na + q)%nat (na + r)%nat s);
   qp4 (fun p q r s => antiq_aa I p (na + q)%nat (na + r)%nat (na + s)%nat);
   qp4 (fun p q r s => antiq_aa I (na + p)%nat q r s);
   qp4 (fun p q r s => antiq_aa I (na + p)%nat q r (na + s)%nat);
   qp4 (fun p q r s => antiq_aa I (na + p)%nat q (na + r)%nat s);
   qp4 (fun p q r s => antiq_aa I (na + p)%nat q (na + r)%nat (na + s)%nat);
   qp4 (fun p q r s => antiq_aa I (na + p)%nat (na + q)%nat r s);
   qp4 (fun p q r s => antiq_aa I (na + p)%nat (na + q)%nat r (na + s)%nat);
   qp4 (fun p q r s => antiq_aa I (na + p)%nat (na + q)%nat (na + r)%nat s);
   qp4 (fun p q r s => antiq_aa I (na + p)%nat (na + q)%nat (na + r)%nat (na + s)%nat);
   qp4 (fun p q r s => q_ab I p q r s);
   qp4 (fun p q r s => q_ab I p q r (nb + s)%nat);
   qp4 (fun p q r s => q_ab I p q (na + r)%nat s);
   qp4 (fun p q r s => q_ab I p q (na + r)%nat (nb + s)%nat);
   qp4 (fun p q r s => q_ab I p (nb + q)%nat r s);
   qp4 (fun p q r s => q_ab I p (nb + q)%nat r (nb + s)%nat);
   qp4 (fun p q r s => q_ab I p (nb + q)%nat (na + r)%nat s);
   qp4 (fun p q r s => q_ab I p (nb + q)%nat (na + r)%nat (nb + s)%nat);
   qp4 (fun p q r s => q_ab I (na + p)%nat q r s);
   qp4 (fun p q r s => q_ab I (na + p)%nat q r (nb + s)%nat);
   qp4 (fun p q r s => q_ab I (na + p)%nat q (na + r)%nat s);
   qp4 (fun p q r s => q_ab I (na + p)%nat q (na + r)%nat (nb + s)%nat);
   qp4 (fun p q r s => q_ab I (na + p)%nat (nb + q)%nat r s);
   qp4 (fun p q r s => q_ab I (na + p)%nat (nb + q)%nat r (nb + s)%nat);
   qp4 (fun p q r s => q_ab I (na + p)%nat (nb + q)%nat (na + r)%nat s);
   qp4 (fun p q r s => q_ab I (na + p)%nat (nb + q)%nat (na + r)%nat (nb + s)%nat);
   qp4 (fun p q r s => antiq_bb I p q r s);
   qp4 (fun p q r s => antiq_bb I p q r (nb + s)%nat);
   qp4 (fun p q r s => antiq_bb I p q (nb + r)%nat s);
   qp4 (fun p q r s => antiq_bb I p q (nb + r)%nat (nb + s)%nat);
   qp4 (fun p q r s => antiq_bb I p (nb + q)%nat r s);
   qp4 (fun p q r s => antiq_bb I p (nb + q)%nat r (nb + s)%nat);
   qp4 (fun p q r s => antiq_bb I p (nb + q)%nat (nb + r)%nat s);
   qp4 (fun p q r s => antiq_bb I p (nb + q)%nat (nb + r)%nat (nb + s)%nat);
   qp4 (fun p q r s => antiq_bb I (nb + p)%nat q r s);
   qp4 (fun p q r s => antiq_bb I (nb + p)%nat q r (nb + s)%nat);
   qp4 (fun p q r s => antiq_bb I (nb + p)%nat q (nb + r)%nat s);
   qp4 (fun p q r s => antiq_bb I (nb + p)%nat q (nb + r)%nat (nb + s)%nat);
   qp4 (fun p q r s => antiq_bb I (nb + p)%nat (nb + q)%nat r s);
   qp4 (fun p q r s => antiq_bb I (nb + p)%nat (nb + q)%nat r (nb + s)%nat);
   qp4 (fun p q r s => antiq_bb I (nb + p)%nat (nb + q)%nat (nb + r)%nat s);
   qp4 (fun p q r s => antiq_bb I (nb + p)%nat (nb + q)%nat (nb + r)%nat (nb + s)%nat);
   qp2 (fun a b => if Nat.eqb a b then 1 else 0)].
Fixpoint denq (dim : nat -> nat) (ten : nat -> list nat -> Q) (e : ex) (v : nat -> nat) : Q :=
  match e with
  | EC n d => n # d | ET k ix => ten k (map v ix) | EAdd a b => Qred (denq dim ten a v + denq dim ten b v) | ESub a b => Qred (denq dim ten a v - denq dim ten b v)
  | EOpp a => - denq dim ten a v | EMul a b => match denq dim ten b v with 0 # _ => 0 | x => Qred (denq dim ten a v * x) end
  | EScale n d a => Qred ((n # d) * denq dim ten a v) | ESum x c a => qsum (dim c) (fun i => denq dim ten a (upd v x i))
  end.
Lemma denq_ok dim ten tenq : (forall k l, ten k l = Q2R (tenq k l)) -> forall e v, den dim ten e v = Q2R (denq dim tenq e v).
Proof.
  intros H. induction e as [n d|k ix|a IHa b IHb|a IHa b IHb|a IHa|a IHa b IHb|n d a IHa|x d a IHa]; intros v; cbn [den denq]; rewrite ?(Qeq_eqR _ _ (Qred_correct _)).
  - reflexivity.
  - apply H.
  - now rewrite Q2R_plus, IHa, IHb.
  - now rewrite Q2R_minus, IHa, IHb.
  - now rewrite Q2R_opp, IHa.
  - rewrite IHa, IHb, <- Q2R_mult. apply Qeq_eqR. destruct (denq dim tenq b v) as [[|p|p] q]; [apply Qmult_0_r|symmetry; apply Qred_correct|symmetry; apply Qred_correct].
  - now rewrite Q2R_mult, IHa.
  - rewrite qsum_ok. apply sumn_ext; intros i _. apply IHa.
Qed.
Lemma q0 : Q2R 0 = 0%R. Proof. unfold Q2R. cbn. lra. Qed.
Lemma fockq_a_ok na nb I p q : fock_a na nb (real I) p q = Q2R (fockq_a na nb I p q).
Proof. unfold fock_a, fockq_a. rewrite (Qeq_eqR _ _ (Qred_correct _)), !Q2R_plus, !qsum_ok. cbn [real h_a w_aa w_ab]. f_equal. f_equal. apply sumn_ext; intros. now rewrite Q2R_minus. Qed.
Lemma fockq_b_ok na nb I p q : fock_b na nb (real I) p q = Q2R (fockq_b na nb I p q).
Proof. unfold fock_b, fockq_b. rewrite (Qeq_eqR _ _ (Qred_correct _)), !Q2R_plus, !qsum_ok. cbn [real h_b w_bb w_ab]. f_equal. apply sumn_ext; intros. now rewrite Q2R_minus. Qed.
Lemma antiq_aa_ok I p q r s : anti_aa (real I) p q r s = Q2R (antiq_aa I p q r s). Proof. unfold anti_aa, antiq_aa. rewrite (Qeq_eqR _ _ (Qred_correct _)), Q2R_minus. reflexivity. Qed.
Lemma antiq_bb_ok I p q r s : anti_bb (real I) p q r s = Q2R (antiq_bb I p q r s). Proof. unfold anti_bb, antiq_bb. rewrite (Qeq_eqR _ _ (Qred_correct _)), Q2R_minus. reflexivity. Qed.
Lemma qp2_ok f g l : (forall a b, f a b = Q2R (g a b)) -> ap2 f l = Q2R (qp2 g l). Proof. intros H. unfold ap2, qp2. destruct l as [|? [|? [|]]]; rewrite ?q0; auto. Qed.
Lemma qp4_ok f g l : (forall a b c e, f a b c e = Q2R (g a b c e)) -> ap4 f l = Q2R (qp4 g l). Proof. intros H. unfold ap4, qp4. destruct l as [|? [|? [|? [|? [|]]]]]; rewrite ?q0; auto. Qed.
Lemma ap6_zero l : ap6 (fun _ _ _ _ _ _ => 0%R) l = Q2R 0. Proof. rewrite q0. unfold ap6. now destruct l as [|? [|? [|? [|? [|? [|? [|]]]]]]]. Qed.
Definition qenv (fs : list (list nat -> Q)) (k : nat) (l : list nat) : Q := nth k fs (fun _ => 0) l.
Lemma qarrays_ok na nb I T k l : tenv (fock_arrays (fock_ints na nb (real I)) (reala T)) k l = Q2R (qenv (qarrays na nb I T) k l).
Proof.
  do 66 (destruct k as [|k]; [unfold tenv, qenv; cbn [nth fock_arrays qarrays];
    first [apply ap6_zero | apply qp2_ok; intros; first [reflexivity | apply fockq_a_ok | apply fockq_b_ok | unfold delta; destruct (Nat.eqb _ _); unfold Q2R; cbn; lra]
          | apply qp4_ok; intros; first [reflexivity | apply antiq_aa_ok | apply antiq_bb_ok]]|]).
  unfold tenv, qenv. rewrite !nth_overflow by (cbn [length fock_arrays qarrays]; lia). now rewrite q0.
Qed.

Definition qp1 (f : nat -> Q) (l : list nat) : Q := match l with [a] => f a | _ => 0 end.
Definition qp3 (f : nat -> nat -> nat -> Q) (l : list nat) : Q := match l with [a; b; c] => f a b c | _ => 0 end.
Definition qp5 (f : nat -> nat -> nat -> nat -> nat -> Q) (l : list nat) : Q := match l with [a; b; c; d; e] => f a b c d e | _ => 0 end.
Definition qp6 (f : nat -> nat -> nat -> nat -> nat -> nat -> Q) (l : list nat) : Q := match l with [a; b; c; d; e; g] => f a b c d e g | _ => 0 end.
Lemma qp1_ok f l : ap1 (fun a => Q2R (f a)) l = Q2R (qp1 f l). Proof. unfold ap1, qp1. destruct l as [|? [|]]; now rewrite ?q0. Qed.
Lemma qp2_ok' f l : ap2 (fun a b => Q2R (f a b)) l = Q2R (qp2 f l). Proof. now apply qp2_ok. Qed.
Lemma qp3_ok f l : ap3 (fun a b c => Q2R (f a b c)) l = Q2R (qp3 f l). Proof. unfold ap3, qp3. destruct l as [|? [|? [|? [|]]]]; now rewrite ?q0. Qed.
Lemma qp4_ok' f l : ap4 (fun a b c e => Q2R (f a b c e)) l = Q2R (qp4 f l). Proof. now apply qp4_ok. Qed.
Lemma qp5_ok f l : ap5 (fun a b c d e => Q2R (f a b c d e)) l = Q2R (qp5 f l). Proof. unfold ap5, qp5. destruct l as [|? [|? [|? [|? [|? [|]]]]]]; now rewrite ?q0. Qed.
Lemma qp6_ok f l : ap6 (fun a b c d e g => Q2R (f a b c d e g)) l = Q2R (qp6 f l). Proof. unfold ap6, qp6. destruct l as [|? [|? [|? [|? [|? [|? [|]]]]]]]; now rewrite ?q0. Qed.
Lemma qsector_ok na nb I T Rs RQ k l : Forall2 (fun f g => forall l, f l = Q2R (g l)) Rs RQ ->
  tenv (fock_arrays (fock_ints na nb (real I)) (reala T) ++ Rs) k l = Q2R (qenv (qarrays na nb I T ++ RQ) k l).
Proof.
  intros H. destruct (Nat.lt_ge_cases k 66) as [L|L].
  - unfold tenv, qenv. rewrite !app_nth1 by (cbn [length fock_arrays qarrays]; lia). apply qarrays_ok.
  - unfold tenv, qenv. rewrite !app_nth2 by (cbn [length fock_arrays qarrays]; lia). change (length (fock_arrays _ _)) with 66%nat. change (length (qarrays _ _ _ _)) with 66%nat.
    generalize (k - 66)%nat as j. clear k L. induction H as [|f g fs gs Hf _ IH]; intros [|j]; cbn [nth]; rewrite ?q0; auto.
Qed.
(** Value of a reified program in the numbering of CcsdReify.v with vectors appended *)
Lemma qvalue d I T Rs RQ e v : Forall2 (fun f g => forall l, f l = Q2R (g l)) Rs RQ -> (length Rs <= 33)%nat ->
  den (fdim d) (tenv (jac_arrays d (fock_ints (noa d) (nob d) (real I)) (reala T) (reala T) ++ Rs)) e v
  = Q2R (denq (fdim d) (qenv (qarrays (noa d) (nob d) I T ++ RQ)) (retag (to_sector (length Rs)) e) v).
Proof. intros H L. rewrite <- retag_sector by exact L. apply denq_ok. intros k l. now apply qsector_ok. Qed.
Lemma qvalue0 d I T e v :
  den (fdim d) (tenv (jac_arrays d (fock_ints (noa d) (nob d) (real I)) (reala T) (reala T))) e v = Q2R (denq (fdim d) (qenv (qarrays (noa d) (nob d) I T)) (rt e) v).
Proof. unfold rt. rewrite <- (retag_ok to_fock _ (tenv (jac_arrays d (fock_ints (noa d) (nob d) (real I)) (reala T) (reala T))) (tenv (fock_arrays (fock_ints (noa d) (nob d) (real I)) (reala T))) (fun k l => to_fock_ok _ _ _ k l)). apply denq_ok. intros k l. apply qarrays_ok. Qed.
(** CCSD equations checked in Q *)
Definition qres (d : dims) (I : qints) (T : qamps) : bool :=
  let ev := denq (fdim d) (qenv (qarrays (noa d) (nob d) I T)) in
  let all := fun n f => forallb f (seq 0 n) in
  let zero := fun e l => Qeq_bool (ev (rt e) (venv l)) 0 in
  (all (nua d) (fun a => all (noa d) (fun i => zero (r_ccsd_res_a 10 0 1) [a; i])) && all (nub d) (fun a => all (nob d) (fun i => zero (r_ccsd_res_b 10 0 1) [a; i])) &&
   all (nua d) (fun a => all (nua d) (fun b => all (noa d) (fun i => all (noa d) (fun j => zero (r_resid_aa 10 0 1 2 3) [a; b; i; j])))) &&
   all (nua d) (fun a => all (nub d) (fun b => all (noa d) (fun i => all (nob d) (fun j => zero (r_ccsd_res_ab 10 0 1 2 3) [a; b; i; j])))) &&
   all (nub d) (fun a => all (nub d) (fun b => all (nob d) (fun i => all (nob d) (fun j => zero (r_resid_bb 10 0 1 2 3) [a; b; i; j])))))%nat.
Lemma all_ok n f k : forallb f (seq 0 n) = true -> (k < n)%nat -> f k = true.
Proof. intros H L. rewrite forallb_forall in H. apply H, in_seq. lia. Qed.
Lemma qres_ok d I T : qres d I T = true -> same_amps d (ccsd_resid d (fock_ints (noa d) (nob d) (real I)) (reala T)) zero_amps.
Proof.
  unfold qres. cbv zeta. rewrite !andb_true_iff. intros ((((A & B) & C) & D) & E).
  constructor; intros; cbn [zero_amps x_a x_b x_aa x_ab x_bb]; rewrite <- q0.
  - apply all_ok with (k := a) in A; [|assumption]. apply all_ok with (k := i) in A; [|assumption]. apply Qeq_bool_eq in A. rewrite <- (Qeq_eqR _ _ A). symmetry. rewrite <- (qvalue0 d I T). reflexivity.
  - apply all_ok with (k := a) in B; [|assumption]. apply all_ok with (k := i) in B; [|assumption]. apply Qeq_bool_eq in B. rewrite <- (Qeq_eqR _ _ B). symmetry. rewrite <- (qvalue0 d I T). reflexivity.
  - apply all_ok with (k := a) in C; [|assumption]. apply all_ok with (k := b) in C; [|assumption]. apply all_ok with (k := i) in C; [|assumption]. apply all_ok with (k := j) in C; [|assumption].
    apply Qeq_bool_eq in C. rewrite <- (Qeq_eqR _ _ C). symmetry. rewrite <- (qvalue0 d I T). reflexivity.
  - apply all_ok with (k := a) in D; [|assumption]. apply all_ok with (k := b) in D; [|assumption]. apply all_ok with (k := i) in D; [|assumption]. apply all_ok with (k := j) in D; [|assumption].
    apply Qeq_bool_eq in D. rewrite <- (Qeq_eqR _ _ D). symmetry. rewrite <- (qvalue0 d I T). reflexivity.
  - apply all_ok with (k := a) in E; [|assumption]. apply all_ok with (k := b) in E; [|assumption]. apply all_ok with (k := i) in E; [|assumption]. apply all_ok with (k := j) in E; [|assumption].
    apply Qeq_bool_eq in E. rewrite <- (Qeq_eqR _ _ E). symmetry. rewrite <- (qvalue0 d I T). reflexivity.
Qed.
