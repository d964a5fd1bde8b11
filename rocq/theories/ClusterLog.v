(** Products and exponentials of antisymmetric operators are antisymmetric; every wave function is an exponential through rank four. *)
From Coq Require Import Reals List Arith Bool Factorial Lra Lia.
From Verif Require Import PspaceSpec ScatterModel ClusterSpec ClusterAlg.
Import ListNotations.
Open Scope R_scope.

Definition ssum (f : list so -> list so -> R) (l : list so) : R :=
  rsum (map (fun z => fst (fst z) * f (snd (fst z)) (snd z)) (splits l)).
Lemma rsum_cons : forall x l, rsum (x :: l) = x + rsum l. Proof. reflexivity. Qed.
Lemma rsum_nil : rsum [] = 0. Proof. reflexivity. Qed.
Ltac rs IH := cbn [map app]; rewrite ?rsum_cons, ?rsum_nil, ?IH; ring.
Lemma rsum_app : forall l m, rsum (l ++ m) = rsum l + rsum m.
Proof. induction l as [|x l IH]; intros m; rs IH. Qed.
Lemma rsum_plus : forall (A : Type) (f g : A -> R) l, rsum (map (fun x => f x + g x) l) = rsum (map f l) + rsum (map g l).
Proof. induction l as [|x l IH]; rs IH. Qed.
Lemma rsum_scal : forall (A : Type) c (f : A -> R) l, rsum (map (fun x => c * f x) l) = c * rsum (map f l).
Proof. induction l as [|x l IH]; rs IH. Qed.
Lemma rsum_opp : forall (A : Type) (f : A -> R) l, rsum (map (fun x => - f x) l) = - rsum (map f l).
Proof. induction l as [|x l IH]; rs IH. Qed.
Lemma rsum_swap : forall (A B : Type) (f : A -> B -> R) l m,
  rsum (map (fun x => rsum (map (f x) m)) l) = rsum (map (fun y => rsum (map (fun x => f x y) l)) m).
Proof.
  induction l as [|x l IH]; intros m; cbn [map].
  - symmetry. now apply rsum_0.
  - change (rsum (map (f x) m) + rsum (map (fun x => rsum (map (f x) m)) l) = rsum (map (fun y => f x y + rsum (map (fun x => f x y) l)) m)).
    rewrite IH. rewrite <- rsum_plus. reflexivity.
Qed.
Lemma rsum_filter : forall (A : Type) (p : A -> bool) (f : A -> R) l,
  rsum (map f (filter p l)) = rsum (map (fun x => if p x then f x else 0) l).
Proof.
  induction l as [|x l IH]; cbn [filter map]; [reflexivity|].
  change (rsum (map f (if p x then x :: filter p l else filter p l)) = (if p x then f x else 0) + rsum (map (fun x => if p x then f x else 0) l)).
  rewrite <- IH. destruct (p x); [reflexivity|lra].
Qed.

Lemma ssum_cons : forall f x l, ssum f (x :: l) = ssum (fun A B => f (x :: A) B) l + ssum (fun A B => (-1) ^ length A * f A (x :: B)) l.
Proof.
  intros. unfold ssum. cbn [splits]. rewrite map_app, rsum_app, !map_map. cbn [fst snd]. f_equal.
  apply rsum_ext. intros z _. ring.
Qed.
Lemma ssum_ext : forall f g l, (forall A B, f A B = g A B) -> ssum f l = ssum g l.
Proof. intros f g l E. apply rsum_ext. intros z _. now rewrite E. Qed.
Lemma ssum_plus : forall f g l, ssum (fun A B => f A B + g A B) l = ssum f l + ssum g l.
Proof. intros. unfold ssum. rewrite <- rsum_plus. apply rsum_ext. intros z _. ring. Qed.
Lemma ssum_opp : forall f l, ssum (fun A B => - f A B) l = - ssum f l.
Proof. intros. unfold ssum. rewrite <- rsum_opp. apply rsum_ext. intros z _. ring. Qed.
Lemma pow_m1_sq : forall n, (-1) ^ n * (-1) ^ n = 1.
Proof. intros. rewrite <- Rpow_mult_distr. replace (-1 * -1) with 1 by lra. apply pow1. Qed.
Definition anti2 (f : list so -> list so -> R) : Prop :=
  (forall A x y B Q, f (A ++ x :: y :: B) Q = - f (A ++ y :: x :: B) Q) /\
  (forall Q A x y B, f Q (A ++ x :: y :: B) = - f Q (A ++ y :: x :: B)).
Lemma ssum_anti : forall pre f x y post, anti2 f -> ssum f (pre ++ x :: y :: post) = - ssum f (pre ++ y :: x :: post).
Proof.
  induction pre as [|p pre IH]; intros f x y post (F1 & F2); cbn [app].
  - rewrite !ssum_cons. rewrite <- !ssum_plus, <- ssum_opp. apply ssum_ext. intros A B. cbn [length].
    pose proof (F1 [] x y A B) as E1. pose proof (F2 A [] x y B) as E2. cbn [app] in E1, E2. rewrite E1, E2. cbn [pow]. ring.
  - rewrite !ssum_cons. rewrite (IH (fun A B => f (p :: A) B)), (IH (fun A B => (-1) ^ length A * f A (p :: B))); [ring| |].
    + split; intros.
      * rewrite !app_length. cbn [length]. rewrite F1. ring.
      * pose proof (F2 Q (p :: A) x0 y0 B) as E. cbn [app] in E. rewrite E. ring.
    + split; intros; [apply (F1 (p :: A))|apply F2].
Qed.

Lemma splits_count : forall s l z, In z (splits l) -> (count_spin s (snd (fst z)) + count_spin s (snd z) = count_spin s l)%nat.
Proof.
  intros s. induction l as [|x l IH]; intros z H; cbn [splits] in H.
  - destruct H as [<-|[]]. reflexivity.
  - apply in_app_or in H as [H|H]; apply in_map_iff in H as (w & <- & H); cbn [fst snd]; specialize (IH w H);
      unfold count_spin in *; cbn [filter]; destruct s, (fst x); cbn [length]; lia.
Qed.
Lemma mul_ssum : forall X Y P H, mul X Y P H =
  ssum (fun A B => ssum (fun U V => if Nat.eqb (length U) (length A) then X A U * Y B V else 0) H) P.
Proof.
  intros. unfold mul, ssum. apply rsum_ext. intros z _. rewrite <- rsum_scal, rsum_filter. apply rsum_ext. intros w _.
  destruct (Nat.eqb _ _); ring.
Qed.
Lemma ssum_swap : forall (f : list so -> list so -> list so -> list so -> R) P H,
  ssum (fun A B => ssum (fun U V => f A B U V) H) P = ssum (fun U V => ssum (fun A B => f A B U V) P) H.
Proof.
  intros. unfold ssum.
  rewrite (rsum_ext _ _ (fun z => rsum (map (fun w => fst (fst z) * (fst (fst w) * f (snd (fst z)) (snd z) (snd (fst w)) (snd w))) (splits H)))) by (intros; now rewrite rsum_scal).
  rewrite rsum_swap. apply rsum_ext. intros w _. rewrite <- rsum_scal. apply rsum_ext. intros; ring.
Qed.
Lemma mul_ssum' : forall X Y P H, mul X Y P H =
  ssum (fun U V => ssum (fun A B => if Nat.eqb (length U) (length A) then X A U * Y B V else 0) P) H.
Proof. intros. rewrite mul_ssum. apply (ssum_swap (fun A B U V => if Nat.eqb (length U) (length A) then X A U * Y B V else 0)). Qed.
Theorem mul_anti : forall X Y, antisymmetric_op X -> antisymmetric_op Y -> antisymmetric_op (mul X Y).
Proof.
  intros X Y [X1 X2 X3] [Y1 Y2 Y3]. constructor.
  - intros. rewrite !mul_ssum. apply ssum_anti. split; intros.
    + rewrite <- ssum_opp. apply ssum_ext. intros U V. rewrite !app_length. cbn [length]. rewrite X1. destruct (Nat.eqb _ _); ring.
    + rewrite <- ssum_opp. apply ssum_ext. intros U V. rewrite Y1. destruct (Nat.eqb _ _); ring.
  - intros. rewrite !mul_ssum'. apply ssum_anti. split; intros.
    + rewrite <- ssum_opp. apply ssum_ext. intros U V. rewrite !app_length. cbn [length]. rewrite X2. destruct (Nat.eqb _ _); ring.
    + rewrite <- ssum_opp. apply ssum_ext. intros U V. rewrite Y2. destruct (Nat.eqb _ _); ring.
  - intros P H s N. unfold mul. apply rsum_0. intros z Hz. apply rsum_0. intros w Hw. apply filter_In in Hw as (Hw & _).
    pose proof (splits_count s P z Hz). pose proof (splits_count s H w Hw).
    destruct (Nat.eq_dec (count_spin s (snd (fst z))) (count_spin s (snd (fst w)))) as [E|E].
    + rewrite (Y3 (snd z) (snd w) s) by lia. ring.
    + rewrite (X3 _ _ s E). ring.
Qed.
Lemma one_anti : antisymmetric_op one.
Proof.
  constructor.
  - intros. destruct P; cbn; lra.
  - intros. destruct P, H; cbn; lra.
  - intros [|x P] [|y H] s N; cbn; try reflexivity. now contradiction N.
Qed.
Lemma power_anti : forall n X, antisymmetric_op X -> antisymmetric_op (power n X).
Proof. induction n; intros X H; cbn [power]; [apply one_anti|]. apply mul_anti; auto. Qed.
Lemma series_anti : forall (w : nat -> R) lo X, antisymmetric_op X ->
  antisymmetric_op (fun P H => rsum (map (fun n => w n * power n X P H) (seq lo (S (length P) - lo)))).
Proof.
  intros w lo X HX. constructor.
  - intros. rewrite !app_length. cbn [length]. rewrite <- rsum_opp. apply rsum_ext. intros n _.
    rewrite (op_particles _ (power_anti n X HX)). ring.
  - intros. rewrite <- rsum_opp. apply rsum_ext. intros n _. rewrite (op_holes _ (power_anti n X HX)). ring.
  - intros P H s N. apply rsum_0. intros n _. rewrite (op_spin _ (power_anti n X HX) P H s N). ring.
Qed.
Lemma anti_ext : forall X Y, (forall P H, X P H = Y P H) -> antisymmetric_op X -> antisymmetric_op Y.
Proof.
  intros X Y E [A B C]. constructor; intros; rewrite <- !E; auto. now apply (C P H s).
Qed.
Theorem cexp_anti : forall T, antisymmetric_op T -> antisymmetric_op (cexp T).
Proof.
  intros T HT. apply (anti_ext (fun P H => rsum (map (fun n => / INR (fact n) * power n T P H) (seq 0 (S (length P) - 0))))).
  - intros. unfold cexp. rewrite Nat.sub_0_r. apply rsum_ext. intros. unfold Rdiv. ring.
  - now apply series_anti.
Qed.

(** The logarithm of a wave function. *)
Definition less_one (C : oper) : oper := fun P H => C P H - one P H.
Definition clog (C : oper) : oper := fun P H =>
  rsum (map (fun n => (-1) ^ S n / INR n * power n (less_one C) P H) (seq 1 (S (length P) - 1))).
Lemma less_one_anti : forall C, antisymmetric_op C -> antisymmetric_op (less_one C).
Proof.
  intros C HC. destruct one_anti as [O1 O2 O3]. constructor; intros; unfold less_one.
  - rewrite (op_particles C HC), O1. ring.
  - rewrite (op_holes C HC), O2. ring.
  - rewrite (op_spin C HC P H s), (O3 P H s) by assumption. ring.
Qed.
Theorem clog_cluster : forall C, normalised_wf C -> cluster_op (clog C).
Proof.
  intros C [HC H1]. constructor; [|reflexivity]. apply series_anti. now apply less_one_anti.
Qed.
Section Log.
Variable C : oper.
Hypothesis C0 : C [] [] = 1.
Lemma D0 : less_one C [] [] = 0. Proof. unfold less_one, one. rewrite C0. ring. Qed.
Lemma clog_eq : forall P H, clog C P H = rsum (map (fun n => (-1) ^ S n / INR n * power1 n (less_one C) P H) (seq 1 (length P))).
Proof. intros. unfold clog. replace (S (length P) - 1)%nat with (length P) by lia. apply rsum_ext. intros n _. now rewrite (power_power1 _ D0). Qed.
Ltac expand := rewrite clog_eq; cbv beta iota zeta delta [power1 mul1 one rsum splits map filter app fst snd seq length fold_right Nat.eqb negb pow INR Nat.add Nat.mul less_one].
Lemma log1 : forall a i, clog C [a] [i] =
  C [a] [i].
Proof. intros. expand. field. Qed.
Lemma log2 : forall a b i j, clog C [a; b] [i; j] =
  - C [a] [i] * C [b] [j] + C [a] [j] * C [b] [i] + C [a; b] [i; j].
Proof. intros. expand. field. Qed.
Lemma log3 : forall a b c i j k, clog C [a; b; c] [i; j; k] =
  2 * C [a] [i] * C [b] [j] * C [c] [k] - 2 * C [a] [i] * C [b] [k] * C [c] [j] - C [a] [i] * C [b; c] [j; k] - 2 * C [a] [j] * C [b] [i] * C [c] [k] + 2 * C [a] [j] * C [b] [k] * C [c] [i] + C [a] [j] * C [b; c] [i; k] + 2 * C [a] [k] * C [b] [i] * C [c] [j] - 2 * C [a] [k] * C [b] [j] * C [c] [i] - C [a] [k] * C [b; c] [i; j] - C [a; b] [i; j] * C [c] [k] + C [a; b] [i; k] * C [c] [j] - C [a; b] [j; k] * C [c] [i] + C [a; c] [i; j] * C [b] [k] - C [a; c] [i; k] * C [b] [j] + C [a; c] [j; k] * C [b] [i] + C [a; b; c] [i; j; k].
Proof. intros. expand. field. Qed.
Lemma log4 : forall a b c d i j k l, clog C [a; b; c; d] [i; j; k; l] =
  - 6 * C [a] [i] * C [b] [j] * C [c] [k] * C [d] [l]
  + 6 * C [a] [i] * C [b] [j] * C [c] [l] * C [d] [k]
  + 2 * C [a] [i] * C [b] [j] * C [c; d] [k; l]
  + 6 * C [a] [i] * C [b] [k] * C [c] [j] * C [d] [l]
  - 6 * C [a] [i] * C [b] [k] * C [c] [l] * C [d] [j]
  - 2 * C [a] [i] * C [b] [k] * C [c; d] [j; l]
  - 6 * C [a] [i] * C [b] [l] * C [c] [j] * C [d] [k]
  + 6 * C [a] [i] * C [b] [l] * C [c] [k] * C [d] [j]
  + 2 * C [a] [i] * C [b] [l] * C [c; d] [j; k]
  + 2 * C [a] [i] * C [b; c] [j; k] * C [d] [l]
  - 2 * C [a] [i] * C [b; c] [j; l] * C [d] [k]
  + 2 * C [a] [i] * C [b; c] [k; l] * C [d] [j]
  - 2 * C [a] [i] * C [b; d] [j; k] * C [c] [l]
  + 2 * C [a] [i] * C [b; d] [j; l] * C [c] [k]
  - 2 * C [a] [i] * C [b; d] [k; l] * C [c] [j]
  - C [a] [i] * C [b; c; d] [j; k; l]
  + 6 * C [a] [j] * C [b] [i] * C [c] [k] * C [d] [l]
  - 6 * C [a] [j] * C [b] [i] * C [c] [l] * C [d] [k]
  - 2 * C [a] [j] * C [b] [i] * C [c; d] [k; l]
  - 6 * C [a] [j] * C [b] [k] * C [c] [i] * C [d] [l]
  + 6 * C [a] [j] * C [b] [k] * C [c] [l] * C [d] [i]
  + 2 * C [a] [j] * C [b] [k] * C [c; d] [i; l]
  + 6 * C [a] [j] * C [b] [l] * C [c] [i] * C [d] [k]
  - 6 * C [a] [j] * C [b] [l] * C [c] [k] * C [d] [i]
  - 2 * C [a] [j] * C [b] [l] * C [c; d] [i; k]
  - 2 * C [a] [j] * C [b; c] [i; k] * C [d] [l]
  + 2 * C [a] [j] * C [b; c] [i; l] * C [d] [k]
  - 2 * C [a] [j] * C [b; c] [k; l] * C [d] [i]
  + 2 * C [a] [j] * C [b; d] [i; k] * C [c] [l]
  - 2 * C [a] [j] * C [b; d] [i; l] * C [c] [k]
  + 2 * C [a] [j] * C [b; d] [k; l] * C [c] [i]
  + C [a] [j] * C [b; c; d] [i; k; l]
  - 6 * C [a] [k] * C [b] [i] * C [c] [j] * C [d] [l]
  + 6 * C [a] [k] * C [b] [i] * C [c] [l] * C [d] [j]
  + 2 * C [a] [k] * C [b] [i] * C [c; d] [j; l]
  + 6 * C [a] [k] * C [b] [j] * C [c] [i] * C [d] [l]
  - 6 * C [a] [k] * C [b] [j] * C [c] [l] * C [d] [i]
  - 2 * C [a] [k] * C [b] [j] * C [c; d] [i; l]
  - 6 * C [a] [k] * C [b] [l] * C [c] [i] * C [d] [j]
  + 6 * C [a] [k] * C [b] [l] * C [c] [j] * C [d] [i]
  + 2 * C [a] [k] * C [b] [l] * C [c; d] [i; j]
  + 2 * C [a] [k] * C [b; c] [i; j] * C [d] [l]
  - 2 * C [a] [k] * C [b; c] [i; l] * C [d] [j]
  + 2 * C [a] [k] * C [b; c] [j; l] * C [d] [i]
  - 2 * C [a] [k] * C [b; d] [i; j] * C [c] [l]
  + 2 * C [a] [k] * C [b; d] [i; l] * C [c] [j]
  - 2 * C [a] [k] * C [b; d] [j; l] * C [c] [i]
  - C [a] [k] * C [b; c; d] [i; j; l]
  + 6 * C [a] [l] * C [b] [i] * C [c] [j] * C [d] [k]
  - 6 * C [a] [l] * C [b] [i] * C [c] [k] * C [d] [j]
  - 2 * C [a] [l] * C [b] [i] * C [c; d] [j; k]
  - 6 * C [a] [l] * C [b] [j] * C [c] [i] * C [d] [k]
  + 6 * C [a] [l] * C [b] [j] * C [c] [k] * C [d] [i]
  + 2 * C [a] [l] * C [b] [j] * C [c; d] [i; k]
  + 6 * C [a] [l] * C [b] [k] * C [c] [i] * C [d] [j]
  - 6 * C [a] [l] * C [b] [k] * C [c] [j] * C [d] [i]
  - 2 * C [a] [l] * C [b] [k] * C [c; d] [i; j]
  - 2 * C [a] [l] * C [b; c] [i; j] * C [d] [k]
  + 2 * C [a] [l] * C [b; c] [i; k] * C [d] [j]
  - 2 * C [a] [l] * C [b; c] [j; k] * C [d] [i]
  + 2 * C [a] [l] * C [b; d] [i; j] * C [c] [k]
  - 2 * C [a] [l] * C [b; d] [i; k] * C [c] [j]
  + 2 * C [a] [l] * C [b; d] [j; k] * C [c] [i]
  + C [a] [l] * C [b; c; d] [i; j; k]
  + 2 * C [a; b] [i; j] * C [c] [k] * C [d] [l]
  - 2 * C [a; b] [i; j] * C [c] [l] * C [d] [k]
  - C [a; b] [i; j] * C [c; d] [k; l]
  - 2 * C [a; b] [i; k] * C [c] [j] * C [d] [l]
  + 2 * C [a; b] [i; k] * C [c] [l] * C [d] [j]
  + C [a; b] [i; k] * C [c; d] [j; l]
  + 2 * C [a; b] [i; l] * C [c] [j] * C [d] [k]
  - 2 * C [a; b] [i; l] * C [c] [k] * C [d] [j]
  - C [a; b] [i; l] * C [c; d] [j; k]
  + 2 * C [a; b] [j; k] * C [c] [i] * C [d] [l]
  - 2 * C [a; b] [j; k] * C [c] [l] * C [d] [i]
  - C [a; b] [j; k] * C [c; d] [i; l]
  - 2 * C [a; b] [j; l] * C [c] [i] * C [d] [k]
  + 2 * C [a; b] [j; l] * C [c] [k] * C [d] [i]
  + C [a; b] [j; l] * C [c; d] [i; k]
  + 2 * C [a; b] [k; l] * C [c] [i] * C [d] [j]
  - 2 * C [a; b] [k; l] * C [c] [j] * C [d] [i]
  - C [a; b] [k; l] * C [c; d] [i; j]
  - 2 * C [a; c] [i; j] * C [b] [k] * C [d] [l]
  + 2 * C [a; c] [i; j] * C [b] [l] * C [d] [k]
  + C [a; c] [i; j] * C [b; d] [k; l]
  + 2 * C [a; c] [i; k] * C [b] [j] * C [d] [l]
  - 2 * C [a; c] [i; k] * C [b] [l] * C [d] [j]
  - C [a; c] [i; k] * C [b; d] [j; l]
  - 2 * C [a; c] [i; l] * C [b] [j] * C [d] [k]
  + 2 * C [a; c] [i; l] * C [b] [k] * C [d] [j]
  + C [a; c] [i; l] * C [b; d] [j; k]
  - 2 * C [a; c] [j; k] * C [b] [i] * C [d] [l]
  + 2 * C [a; c] [j; k] * C [b] [l] * C [d] [i]
  + C [a; c] [j; k] * C [b; d] [i; l]
  + 2 * C [a; c] [j; l] * C [b] [i] * C [d] [k]
  - 2 * C [a; c] [j; l] * C [b] [k] * C [d] [i]
  - C [a; c] [j; l] * C [b; d] [i; k]
  - 2 * C [a; c] [k; l] * C [b] [i] * C [d] [j]
  + 2 * C [a; c] [k; l] * C [b] [j] * C [d] [i]
  + C [a; c] [k; l] * C [b; d] [i; j]
  + 2 * C [a; d] [i; j] * C [b] [k] * C [c] [l]
  - 2 * C [a; d] [i; j] * C [b] [l] * C [c] [k]
  - C [a; d] [i; j] * C [b; c] [k; l]
  - 2 * C [a; d] [i; k] * C [b] [j] * C [c] [l]
  + 2 * C [a; d] [i; k] * C [b] [l] * C [c] [j]
  + C [a; d] [i; k] * C [b; c] [j; l]
  + 2 * C [a; d] [i; l] * C [b] [j] * C [c] [k]
  - 2 * C [a; d] [i; l] * C [b] [k] * C [c] [j]
  - C [a; d] [i; l] * C [b; c] [j; k]
  + 2 * C [a; d] [j; k] * C [b] [i] * C [c] [l]
  - 2 * C [a; d] [j; k] * C [b] [l] * C [c] [i]
  - C [a; d] [j; k] * C [b; c] [i; l]
  - 2 * C [a; d] [j; l] * C [b] [i] * C [c] [k]
  + 2 * C [a; d] [j; l] * C [b] [k] * C [c] [i]
  + C [a; d] [j; l] * C [b; c] [i; k]
  + 2 * C [a; d] [k; l] * C [b] [i] * C [c] [j]
  - 2 * C [a; d] [k; l] * C [b] [j] * C [c] [i]
  - C [a; d] [k; l] * C [b; c] [i; j]
  - C [a; b; c] [i; j; k] * C [d] [l]
  + C [a; b; c] [i; j; l] * C [d] [k]
  - C [a; b; c] [i; k; l] * C [d] [j]
  + C [a; b; c] [j; k; l] * C [d] [i]
  + C [a; b; d] [i; j; k] * C [c] [l]
  - C [a; b; d] [i; j; l] * C [c] [k]
  + C [a; b; d] [i; k; l] * C [c] [j]
  - C [a; b; d] [j; k; l] * C [c] [i]
  - C [a; c; d] [i; j; k] * C [b] [l]
  + C [a; c; d] [i; j; l] * C [b] [k]
  - C [a; c; d] [i; k; l] * C [b] [j]
  + C [a; c; d] [j; k; l] * C [b] [i]
  + C [a; b; c; d] [i; j; k; l].
Proof. intros. expand. field. Qed.
Lemma clog0 : clog C [] [] = 0. Proof. reflexivity. Qed.
Lemma exp_log1 : forall a i, cexp (clog C) [a] [i] = C [a] [i].
Proof. intros. rewrite (exp1 _ clog0), log1. ring. Qed.
Lemma exp_log2 : forall a b i j, cexp (clog C) [a; b] [i; j] = C [a; b] [i; j].
Proof. intros. rewrite (exp2 _ clog0), !log2, !log1. ring. Qed.
Lemma exp_log3 : forall a b c i j k, cexp (clog C) [a; b; c] [i; j; k] = C [a; b; c] [i; j; k].
Proof. intros. rewrite (exp3 _ clog0), !log3, !log2, !log1. ring. Qed.
Lemma exp_log4 : forall a b c d i j k l, cexp (clog C) [a; b; c; d] [i; j; k; l] = C [a; b; c; d] [i; j; k; l].
Proof. intros. rewrite (exp4 _ clog0), !log4, !log3, !log2, !log1. ring. Qed.
End Log.
Lemma count_total : forall l, (count_spin Alpha l + count_spin Beta l = length l)%nat.
Proof. induction l as [|[[|] x] l IH]; unfold count_spin in *; cbn in *; lia. Qed.
Lemma anti_length : forall X P H, antisymmetric_op X -> length P <> length H -> X P H = 0.
Proof.
  intros X P H HX N. rewrite <- (count_total P), <- (count_total H) in N.
  destruct (Nat.eq_dec (count_spin Alpha P) (count_spin Alpha H)) as [E|E].
  - apply (op_spin X HX P H Beta). lia.
  - now apply (op_spin X HX P H Alpha).
Qed.
Theorem exp_log : forall C, normalised_wf C -> forall P H, (length P <= 4)%nat -> cexp (clog C) P H = C P H.
Proof.
  intros C HC P H L. pose proof (clog_cluster C HC) as HL. destruct HC as [HC C0].
  destruct (Nat.eq_dec (length P) (length H)) as [E|E].
  - destruct P as [|a [|b [|c [|e [|]]]]], H as [|i [|j [|k [|m [|]]]]]; cbn in L, E; try lia.
    + rewrite exp0, C0. reflexivity.
    + now apply exp_log1. + now apply exp_log2. + now apply exp_log3. + now apply exp_log4.
  - rewrite (anti_length (cexp (clog C)) P H), (anti_length C P H); try assumption; [reflexivity|].
    apply cexp_anti. apply HL.
Qed.
