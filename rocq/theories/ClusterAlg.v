(** Expansion of exp(T) through rank four, and the program's formulas as its inverse. *)
From Coq Require Import Reals List Arith Factorial Lra Lia.
From Verif Require Import TensorObjs PspaceSpec ScatterModel ClusterModel ClusterSpec.
Import ListNotations.
Open Scope R_scope.

(** ** Terms with an empty cluster vanish *)
Definition mul1 (X Y : oper) : oper := fun P H =>
  rsum (map (fun z => rsum (map (fun w => fst (fst z) * fst (fst w) * (X (snd (fst z)) (snd (fst w)) * Y (snd z) (snd w)))
                             (filter (fun w => Nat.eqb (length (snd (fst w))) (length (snd (fst z)))) (splits H))))
            (filter (fun z => negb (Nat.eqb (length (snd (fst z))) 0)) (splits P))).
Fixpoint power1 (n : nat) (X : oper) : oper := match n with O => one | S n => mul1 X (power1 n X) end.
Lemma rsum_ext : forall (A : Type) (f g : A -> R) l, (forall x, In x l -> f x = g x) -> rsum (map f l) = rsum (map g l).
Proof.
  induction l as [|x l IH]; intros H; cbn [map rsum fold_right]; [reflexivity|].
  rewrite (H x) by now left. change (g x + rsum (map f l) = g x + rsum (map g l)). now rewrite IH by (intros; apply H; now right).
Qed.
Lemma rsum_filter0 : forall (A : Type) (f : A -> R) (p : A -> bool) l, (forall x, In x l -> p x = false -> f x = 0) ->
  rsum (map f l) = rsum (map f (filter p l)).
Proof.
  induction l as [|x l IH]; intros H; cbn [map filter]; [reflexivity|].
  change (f x + rsum (map f l) = rsum (map f (if p x then x :: filter p l else filter p l))).
  rewrite IH by (intros; apply H; [now right|assumption]). destruct (p x) eqn:E; [reflexivity|].
  rewrite (H x) by (try assumption; now left). lra.
Qed.
Lemma rsum_0 : forall (A : Type) (f : A -> R) l, (forall x, In x l -> f x = 0) -> rsum (map f l) = 0.
Proof. induction l as [|x l IH]; intros H; cbn; [reflexivity|]. rewrite (H x) by now left. change (0 + rsum (map f l) = 0). rewrite IH; [lra|]. intros; apply H; now right. Qed.

Section Expand.
Variable T : oper.
Hypothesis T0 : T [] [] = 0.
Lemma mul_mul1 : forall Y Y' P H, (forall P H, Y P H = Y' P H) -> mul T Y P H = mul1 T Y' P H.
Proof.
  intros Y Y' P H E. unfold mul, mul1. rewrite <- rsum_filter0.
  - apply rsum_ext. intros z _. apply rsum_ext. intros w _. now rewrite E.
  - intros ((s, S0), R0) _ Hz. cbn [fst snd] in *. destruct S0 as [|? ?]; [|discriminate Hz].
    apply rsum_0. intros ((s', U), V) Hw. cbn [fst snd] in *. apply filter_In in Hw as (_ & Hw). cbn [fst snd length] in Hw.
    destruct U; [|discriminate Hw]. rewrite T0. ring.
Qed.
Lemma power_power1 : forall n P H, power n T P H = power1 n T P H.
Proof. induction n; intros P H; [reflexivity|]. cbn [power power1]. now apply mul_mul1. Qed.
Lemma cexp_eq : forall P H, cexp T P H = rsum (map (fun n => power1 n T P H / INR (fact n)) (seq 0 (S (length P)))).
Proof. intros. apply rsum_ext. intros n _. now rewrite power_power1. Qed.
Ltac expand := rewrite cexp_eq; cbv beta iota zeta delta [power1 mul1 one rsum splits map filter app fst snd seq length fold_right Nat.eqb negb fact pow INR Nat.add Nat.mul].
Lemma exp1 : forall a i, cexp T [a] [i] =
  T [a] [i].
Proof. intros. expand. field. Qed.
Lemma exp2 : forall a b i j, cexp T [a; b] [i; j] =
  T [a] [i] * T [b] [j] - T [a] [j] * T [b] [i] + T [a; b] [i; j].
Proof. intros. expand. field. Qed.
Lemma exp3 : forall a b c i j k, cexp T [a; b; c] [i; j; k] =
  T [a] [i] * T [b] [j] * T [c] [k] - T [a] [i] * T [b] [k] * T [c] [j] + T [a] [i] * T [b; c] [j; k] - T [a] [j] * T [b] [i] * T [c] [k] + T [a] [j] * T [b] [k] * T [c] [i] - T [a] [j] * T [b; c] [i; k] + T [a] [k] * T [b] [i] * T [c] [j] - T [a] [k] * T [b] [j] * T [c] [i] + T [a] [k] * T [b; c] [i; j] + T [a; b] [i; j] * T [c] [k] - T [a; b] [i; k] * T [c] [j] + T [a; b] [j; k] * T [c] [i] - T [a; c] [i; j] * T [b] [k] + T [a; c] [i; k] * T [b] [j] - T [a; c] [j; k] * T [b] [i] + T [a; b; c] [i; j; k].
Proof. intros. expand. field. Qed.
Lemma exp4 : forall a b c d i j k l, cexp T [a; b; c; d] [i; j; k; l] =
  T [a] [i] * T [b] [j] * T [c] [k] * T [d] [l]
  - T [a] [i] * T [b] [j] * T [c] [l] * T [d] [k]
  + T [a] [i] * T [b] [j] * T [c; d] [k; l]
  - T [a] [i] * T [b] [k] * T [c] [j] * T [d] [l]
  + T [a] [i] * T [b] [k] * T [c] [l] * T [d] [j]
  - T [a] [i] * T [b] [k] * T [c; d] [j; l]
  + T [a] [i] * T [b] [l] * T [c] [j] * T [d] [k]
  - T [a] [i] * T [b] [l] * T [c] [k] * T [d] [j]
  + T [a] [i] * T [b] [l] * T [c; d] [j; k]
  + T [a] [i] * T [b; c] [j; k] * T [d] [l]
  - T [a] [i] * T [b; c] [j; l] * T [d] [k]
  + T [a] [i] * T [b; c] [k; l] * T [d] [j]
  - T [a] [i] * T [b; d] [j; k] * T [c] [l]
  + T [a] [i] * T [b; d] [j; l] * T [c] [k]
  - T [a] [i] * T [b; d] [k; l] * T [c] [j]
  + T [a] [i] * T [b; c; d] [j; k; l]
  - T [a] [j] * T [b] [i] * T [c] [k] * T [d] [l]
  + T [a] [j] * T [b] [i] * T [c] [l] * T [d] [k]
  - T [a] [j] * T [b] [i] * T [c; d] [k; l]
  + T [a] [j] * T [b] [k] * T [c] [i] * T [d] [l]
  - T [a] [j] * T [b] [k] * T [c] [l] * T [d] [i]
  + T [a] [j] * T [b] [k] * T [c; d] [i; l]
  - T [a] [j] * T [b] [l] * T [c] [i] * T [d] [k]
  + T [a] [j] * T [b] [l] * T [c] [k] * T [d] [i]
  - T [a] [j] * T [b] [l] * T [c; d] [i; k]
  - T [a] [j] * T [b; c] [i; k] * T [d] [l]
  + T [a] [j] * T [b; c] [i; l] * T [d] [k]
  - T [a] [j] * T [b; c] [k; l] * T [d] [i]
  + T [a] [j] * T [b; d] [i; k] * T [c] [l]
  - T [a] [j] * T [b; d] [i; l] * T [c] [k]
  + T [a] [j] * T [b; d] [k; l] * T [c] [i]
  - T [a] [j] * T [b; c; d] [i; k; l]
  + T [a] [k] * T [b] [i] * T [c] [j] * T [d] [l]
  - T [a] [k] * T [b] [i] * T [c] [l] * T [d] [j]
  + T [a] [k] * T [b] [i] * T [c; d] [j; l]
  - T [a] [k] * T [b] [j] * T [c] [i] * T [d] [l]
  + T [a] [k] * T [b] [j] * T [c] [l] * T [d] [i]
  - T [a] [k] * T [b] [j] * T [c; d] [i; l]
  + T [a] [k] * T [b] [l] * T [c] [i] * T [d] [j]
  - T [a] [k] * T [b] [l] * T [c] [j] * T [d] [i]
  + T [a] [k] * T [b] [l] * T [c; d] [i; j]
  + T [a] [k] * T [b; c] [i; j] * T [d] [l]
  - T [a] [k] * T [b; c] [i; l] * T [d] [j]
  + T [a] [k] * T [b; c] [j; l] * T [d] [i]
  - T [a] [k] * T [b; d] [i; j] * T [c] [l]
  + T [a] [k] * T [b; d] [i; l] * T [c] [j]
  - T [a] [k] * T [b; d] [j; l] * T [c] [i]
  + T [a] [k] * T [b; c; d] [i; j; l]
  - T [a] [l] * T [b] [i] * T [c] [j] * T [d] [k]
  + T [a] [l] * T [b] [i] * T [c] [k] * T [d] [j]
  - T [a] [l] * T [b] [i] * T [c; d] [j; k]
  + T [a] [l] * T [b] [j] * T [c] [i] * T [d] [k]
  - T [a] [l] * T [b] [j] * T [c] [k] * T [d] [i]
  + T [a] [l] * T [b] [j] * T [c; d] [i; k]
  - T [a] [l] * T [b] [k] * T [c] [i] * T [d] [j]
  + T [a] [l] * T [b] [k] * T [c] [j] * T [d] [i]
  - T [a] [l] * T [b] [k] * T [c; d] [i; j]
  - T [a] [l] * T [b; c] [i; j] * T [d] [k]
  + T [a] [l] * T [b; c] [i; k] * T [d] [j]
  - T [a] [l] * T [b; c] [j; k] * T [d] [i]
  + T [a] [l] * T [b; d] [i; j] * T [c] [k]
  - T [a] [l] * T [b; d] [i; k] * T [c] [j]
  + T [a] [l] * T [b; d] [j; k] * T [c] [i]
  - T [a] [l] * T [b; c; d] [i; j; k]
  + T [a; b] [i; j] * T [c] [k] * T [d] [l]
  - T [a; b] [i; j] * T [c] [l] * T [d] [k]
  + T [a; b] [i; j] * T [c; d] [k; l]
  - T [a; b] [i; k] * T [c] [j] * T [d] [l]
  + T [a; b] [i; k] * T [c] [l] * T [d] [j]
  - T [a; b] [i; k] * T [c; d] [j; l]
  + T [a; b] [i; l] * T [c] [j] * T [d] [k]
  - T [a; b] [i; l] * T [c] [k] * T [d] [j]
  + T [a; b] [i; l] * T [c; d] [j; k]
  + T [a; b] [j; k] * T [c] [i] * T [d] [l]
  - T [a; b] [j; k] * T [c] [l] * T [d] [i]
  + T [a; b] [j; k] * T [c; d] [i; l]
  - T [a; b] [j; l] * T [c] [i] * T [d] [k]
  + T [a; b] [j; l] * T [c] [k] * T [d] [i]
  - T [a; b] [j; l] * T [c; d] [i; k]
  + T [a; b] [k; l] * T [c] [i] * T [d] [j]
  - T [a; b] [k; l] * T [c] [j] * T [d] [i]
  + T [a; b] [k; l] * T [c; d] [i; j]
  - T [a; c] [i; j] * T [b] [k] * T [d] [l]
  + T [a; c] [i; j] * T [b] [l] * T [d] [k]
  - T [a; c] [i; j] * T [b; d] [k; l]
  + T [a; c] [i; k] * T [b] [j] * T [d] [l]
  - T [a; c] [i; k] * T [b] [l] * T [d] [j]
  + T [a; c] [i; k] * T [b; d] [j; l]
  - T [a; c] [i; l] * T [b] [j] * T [d] [k]
  + T [a; c] [i; l] * T [b] [k] * T [d] [j]
  - T [a; c] [i; l] * T [b; d] [j; k]
  - T [a; c] [j; k] * T [b] [i] * T [d] [l]
  + T [a; c] [j; k] * T [b] [l] * T [d] [i]
  - T [a; c] [j; k] * T [b; d] [i; l]
  + T [a; c] [j; l] * T [b] [i] * T [d] [k]
  - T [a; c] [j; l] * T [b] [k] * T [d] [i]
  + T [a; c] [j; l] * T [b; d] [i; k]
  - T [a; c] [k; l] * T [b] [i] * T [d] [j]
  + T [a; c] [k; l] * T [b] [j] * T [d] [i]
  - T [a; c] [k; l] * T [b; d] [i; j]
  + T [a; d] [i; j] * T [b] [k] * T [c] [l]
  - T [a; d] [i; j] * T [b] [l] * T [c] [k]
  + T [a; d] [i; j] * T [b; c] [k; l]
  - T [a; d] [i; k] * T [b] [j] * T [c] [l]
  + T [a; d] [i; k] * T [b] [l] * T [c] [j]
  - T [a; d] [i; k] * T [b; c] [j; l]
  + T [a; d] [i; l] * T [b] [j] * T [c] [k]
  - T [a; d] [i; l] * T [b] [k] * T [c] [j]
  + T [a; d] [i; l] * T [b; c] [j; k]
  + T [a; d] [j; k] * T [b] [i] * T [c] [l]
  - T [a; d] [j; k] * T [b] [l] * T [c] [i]
  + T [a; d] [j; k] * T [b; c] [i; l]
  - T [a; d] [j; l] * T [b] [i] * T [c] [k]
  + T [a; d] [j; l] * T [b] [k] * T [c] [i]
  - T [a; d] [j; l] * T [b; c] [i; k]
  + T [a; d] [k; l] * T [b] [i] * T [c] [j]
  - T [a; d] [k; l] * T [b] [j] * T [c] [i]
  + T [a; d] [k; l] * T [b; c] [i; j]
  + T [a; b; c] [i; j; k] * T [d] [l]
  - T [a; b; c] [i; j; l] * T [d] [k]
  + T [a; b; c] [i; k; l] * T [d] [j]
  - T [a; b; c] [j; k; l] * T [d] [i]
  - T [a; b; d] [i; j; k] * T [c] [l]
  + T [a; b; d] [i; j; l] * T [c] [k]
  - T [a; b; d] [i; k; l] * T [c] [j]
  + T [a; b; d] [j; k; l] * T [c] [i]
  + T [a; c; d] [i; j; k] * T [b] [l]
  - T [a; c; d] [i; j; l] * T [b] [k]
  + T [a; c; d] [i; k; l] * T [b] [j]
  - T [a; c; d] [j; k; l] * T [b] [i]
  + T [a; b; c; d] [i; j; k; l].
Proof. intros. expand. field. Qed.
Lemma exp0 : cexp T [] [] = 1.
Proof. cbv -[IZR Rplus Rmult Rdiv Rinv]. field. Qed.
End Expand.
