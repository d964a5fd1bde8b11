import sys
sys.path.insert(0,'/tmp/w/ca')
from e4 import expr
o='''(** Expansion of exp(T) through rank four, and the program's formulas as its inverse. *)
From Coq Require Import Reals List Arith Factorial Lra Lia.
From Verif Require Import TensorObjs PspaceSpec ScatterModel ClusterModel ClusterSpec.
Import ListNotations.
Open Scope R_scope.

(** ** Terms with an empty cluster vanish *)
Definition mul1 (X Y : oper) : oper := fun P H =>
  rsum (map (fun z => rsum (map (fun w => fst (fst z) * fst (fst w) * (X (snd (fst z)) (snd (fst w)) * Y (snd z) (snd w)))
                             (filter (fun w => Nat.eqb (length (snd (fst w))) (length (snd (fst z)))) (splits H))))
            (filter (fun z => negb (Nat.eqb (length (snd (fst z))) 0)) (splits P))).
Fixpoint power1 (n : nat) (X : oper) : oper := match n with O => one | S n => mul1 X (power1 n X) end.
Lemma rsum_ext : forall (A : Type) (f g : A -> R) l, (forall x, In x l -> f x = g x) -> rsum (map f l) = rsum (map g l).
Proof.
  induction l as [|x l IH]; intros H; cbn [map rsum fold_right]; [reflexivity|].
  rewrite (H x) by now left. change (g x + rsum (map f l) = g x + rsum (map g l)). now rewrite IH by (intros; apply H; now right).
Qed.
Lemma rsum_filter0 : forall (A : Type) (f : A -> R) (p : A -> bool) l, (forall x, In x l -> p x = false -> f x = 0) ->
  rsum (map f l) = rsum (map f (filter p l)).
Proof.
  induction l as [|x l IH]; intros H; cbn [map filter]; [reflexivity|].
  change (f x + rsum (map f l) = rsum (map f (if p x then x :: filter p l else filter p l))).
  rewrite IH by (intros; apply H; [now right|assumption]). destruct (p x) eqn:E; [reflexivity|].
  rewrite (H x) by (try assumption; now left). lra.
Qed.
Lemma rsum_0 : forall (A : Type) (f : A -> R) l, (forall x, In x l -> f x = 0) -> rsum (map f l) = 0.
Proof. induction l as [|x l IH]; intros H; cbn; [reflexivity|]. rewrite (H x) by now left. change (0 + rsum (map f l) = 0). rewrite IH; [lra|]. intros; apply H; now right. Qed.

Section Expand.
Variable T : oper.
Hypothesis T0 : T [] [] = 0.
Lemma mul_mul1 : forall Y Y' P H, (forall P H, Y P H = Y' P H) -> mul T Y P H = mul1 T Y' P H.
Proof.
  intros Y Y' P H E. unfold mul, mul1. rewrite <- rsum_filter0.
  - apply rsum_ext. intros z _. apply rsum_ext. intros w _. now rewrite E.
  - intros ((s, S0), R0) _ Hz. cbn [fst snd] in *. destruct S0 as [|? ?]; [|discriminate Hz].
    apply rsum_0. intros ((s', U), V) Hw. cbn [fst snd] in *. apply filter_In in Hw as (_ & Hw). cbn [fst snd length] in Hw.
    destruct U; [|discriminate Hw]. rewrite T0. ring.
Qed.
Lemma power_power1 : forall n P H, power n T P H = power1 n T P H.
Proof. induction n; intros P H; [reflexivity|]. cbn [power power1]. now apply mul_mul1. Qed.
Lemma cexp_eq : forall P H, cexp T P H = rsum (map (fun n => power1 n T P H / INR (fact n)) (seq 0 (S (length P)))).
Proof. intros. apply rsum_ext. intros n _. now rewrite power_power1. Qed.
Ltac expand := rewrite cexp_eq; cbv beta iota zeta delta [power1 mul1 one rsum splits map filter app fst snd seq length fold_right Nat.eqb negb fact pow INR Nat.add Nat.mul].
'''
names='abcd';h='ijkl'
for n in (1,2,3,4):
    P=list(names[:n]);H=list(h[:n])
    o+='Lemma exp%d : forall %s, cexp T [%s] [%s] =\n  %s.\n'%(n,' '.join(P+H),'; '.join(P),'; '.join(H),expr(P,H).replace(' + ','\n  + ').replace(' - ','\n  - ') if n==4 else expr(P,H))
    o+='Proof. intros. expand. field. Qed.\n'
o+='Lemma exp0 : cexp T [] [] = 1.\nProof. cbv -[IZR Rplus Rmult Rdiv Rinv]. field. Qed.\n'
o+='End Expand.\n'
open('ClusterAlg.v','w').write(o)
