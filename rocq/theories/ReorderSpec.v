(** Specification vocabulary for tensors stored in column-major order. *)
From Coq Require Import List Arith.
Import ListNotations.

(** Offset of the element with (0-based) multi-index [x] of a tensor of a given shape: the first index runs fastest. *)
Fixpoint offset (shape x : list nat) : nat :=
  match shape, x with d :: sh, i :: r => i + d * offset sh r | _, _ => 0 end.
Definition in_bounds (shape x : list nat) : Prop := Forall2 (fun d i => i < d) shape x.
(** [perm] is an arrangement of 1..n. *)
Definition arrangement (n : nat) (perm : list nat) : Prop := length perm = n /\ NoDup perm /\ forall p, In p perm -> 1 <= p <= n.
(** Axis i of the new tensor is axis perm(i) of the old one: shape of the new tensor, and relation between multi-indices. *)
Definition permuted (perm l : list nat) : list nat := map (fun p => nth (p - 1) l 0) perm.
Definition total (shape : list nat) : nat := fold_right Nat.mul 1 shape.
