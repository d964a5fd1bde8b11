(** The triple excitations of a spin case. *)
From Coq Require Import List Arith.
From Verif Require Import SelectModel.
Import ListNotations.
Section Q.
Variables noa nua nob nub : nat.
Definition three_of (s : spincase) (na nb : nat) (t : row) : Prop :=
  match t with
  | [p; q; r] =>
      match s with
      | aaa => 1 <= p < q /\ q < r <= na
      | aab => 1 <= p < q /\ q <= na /\ 1 <= r <= nb
      | abb => 1 <= p <= na /\ 1 <= q < r /\ r <= nb
      | bbb => 1 <= p < q /\ q < r <= nb
      end
  | _ => False
  end.
Definition excitation_of (s : spincase) (t : row) : Prop :=
  exists abc ijk, t = abc ++ ijk /\ three_of s nua nub abc /\ three_of s noa nob ijk.
End Q.
