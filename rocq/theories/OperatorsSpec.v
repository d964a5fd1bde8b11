(** Specification vocabulary for C06-C09: what it means for two operators to have the same layout
    and the same amplitudes.  Only the data types of OperatorsModel are used. *)
From Coq Require Import List Arith.
From Verif Require Import OperatorsModel.
Import ListNotations.

Section Spec.
Variable A : Type.

(** Number of entries of an array of the given shape. *)
Fixpoint volume (dims : list nat) : nat := match dims with [] => 1 | d :: r => d * volume r end.

(** Two arrays of the same shape (each with as many entries as its shape says). *)
Definition same_shape (x y : arr A) : Prop :=
  shape A x = shape A y /\ length (data A x) = volume (shape A x)
  /\ length (data A y) = volume (shape A y).

(** Same kind of attribute: arrays of the same shape, or active-space containers with the same
    slices holding arrays of the same shapes. *)
Definition same_kind (x y : attr A) : Prop :=
  match x, y with
  | Arr _ u, Arr _ v => same_shape u v
  | Act _ a, Act _ b =>
      a_slices A a = a_slices A b /\ a_dims A a = a_dims A b /\ a_ndim A a = a_ndim A b /\
      forall s, In s (a_slices A a) ->
        exists u v, a_attrs A a s = Some u /\ a_attrs A b s = Some v /\ same_shape u v
  | _, _ => False
  end.

(** Two operators with the same spin cases, recorded dimensions and attribute shapes; the values of
    the amplitudes are unconstrained. *)
Definition same_layout (o o' : op A) : Prop :=
  o_order A o = o_order A o' /\ o_spin_cases A o = o_spin_cases A o' /\ o_dims A o = o_dims A o' /\
  o_ndim A o = o_ndim A o' /\
  forall nm, In nm (o_spin_cases A o) ->
    exists x y, o_attrs A o nm = Some x /\ o_attrs A o' nm = Some y /\ same_kind x y.

(** Same value of every amplitude. *)
Definition same_value (x y : attr A) : Prop :=
  match x, y with
  | Arr _ u, Arr _ v => u = v
  | Act _ a, Act _ b => forall s, In s (a_slices A a) -> a_attrs A a s = a_attrs A b s
  | _, _ => False
  end.
Definition same_amplitudes (o o' : op A) : Prop :=
  o_spin_cases A o = o_spin_cases A o' /\
  forall nm, In nm (o_spin_cases A o) ->
    exists x y, o_attrs A o nm = Some x /\ o_attrs A o' nm = Some y /\ same_value x y.

(** Keyword arguments for which the layout is meant to work:
    - every P-space list is non-empty;
    - the active-space orders are the highest ones (no unrestricted order above an active one);
    - the number of active indices requested does not exceed the excitation rank. *)
Definition proper_config (order : nat) (c : config) : Prop :=
  (forall l n, In l (pspace_sizes c) -> In n l -> 0 < n) /\
  (forall i j, 1 <= i < j -> j <= order -> In i (active_orders c) -> In j (active_orders c)) /\
  (forall i n, In i (active_orders c) -> In n (num_active c) -> n <= i).
End Spec.
