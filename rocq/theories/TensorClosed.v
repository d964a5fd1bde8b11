(** Folding the beta axis lengths onto the alpha ones, for closed shells; zero integrals; operators without triples (proof support). *)
From Coq Require Import Reals Arith List Lra Lia.
From Verif Require Import RSum IntegralsModel TensorObjs TensorAlg TensorSpec.
Import ListNotations.
Open Scope R_scope.
Definition zints : ints.
Proof. constructor; repeat (intros ?); exact 0. Defined.
Definition no_triples (T : amps) : amps := mkAmps (x_a T) (x_b T) (x_aa T) (x_ab T) (x_bb T) (fun _ _ _ _ _ _ => 0) (fun _ _ _ _ _ _ => 0) (fun _ _ _ _ _ _ => 0) (fun _ _ _ _ _ _ => 0).
Lemma no_triples_antisym T : antisym_triples (no_triples T).
Proof. constructor; intros; cbn; ring. Qed.
Lemma no_triples_doubles T : antisym_amps T -> antisym_amps (no_triples T).
Proof. intros [A B C D]. constructor; assumption. Qed.
Definition dfold (x : nat) : nat := match x with 2 => 0 | 3 => 1 | _ => x end.
Lemma dfold_ok d : noa d = nob d -> nua d = nub d -> forall x, denv [noa d; nua d; nob d; nub d] (dfold x) = denv [noa d; nua d; nob d; nub d] x.
Proof. intros E F [|[|[|[|x]]]]; cbn; congruence. Qed.
