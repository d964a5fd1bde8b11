(** Specification vocabulary for C32-C34 and C60. *)
From Coq Require Import Reals List Arith.
From Verif Require Import RSum IntegralsModel.
Import ListNotations.
Open Scope R_scope.
(** Exchanging the two electrons leaves a bare two-electron integral <pq|rs> unchanged. *)
Definition exchange_symmetric (e2 : mat4) : Prop := forall p q r s, e2 p q r s = e2 q p s r.
Definition bra_antisymmetric (v : mat4) : Prop := forall p q r s, v p q r s = - v q p r s.
Definition ket_antisymmetric (v : mat4) : Prop := forall p q r s, v p q r s = - v p q s r.
(** <pq|rs> = sum_x L[x,p,r] L[x,q,s] *)
Definition dense_of (nx : nat) (L : mat3) : mat4 := fun p q r s => sumn nx (fun x => L x p r * L x q s).
(** A position lies within an array of the given shape. *)
Definition in_shape (shape pos : list nat) : Prop := Forall2 (fun n k => (k < n)%nat) shape pos.
(** The same system with the correlated electrons removed: only the frozen core is occupied. *)
Definition core_only (s : sysd) : sysd := mkSys (s_nf s) 0 0 (s_norb s).
