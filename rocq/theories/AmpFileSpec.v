(** Amplitude files: the numbers of each spin block, holes slowest, in a fixed order of the blocks. *)
From Coq Require Import List Arith Reals Bool.
From Verif Require Import AmpFileModel.
Import ListNotations.
Local Open Scope R_scope.

Definition upto (n : nat) : list nat := seq 0 n.
Definition each {A B : Type} (l : list A) (f : A -> list B) : list B := flat_map f l.

Section Dump.
Variables (s : asys) (X : op).
Let oa := upto (a_noa s). Let ob := upto (a_nob s). Let va := upto (a_nua s). Let vb := upto (a_nub s).
Notation A := true. Notation B := false.
Definition dump_a := each oa (fun i => each va (fun a => [X [A] [a; i]])).
Definition dump_b := each ob (fun i => each vb (fun a => [X [B] [a; i]])).
Definition dump_aa := each oa (fun i => each oa (fun j => each va (fun a => each va (fun b => [X [A; A] [a; b; i; j]])))).
Definition dump_ab := each oa (fun i => each ob (fun j => each va (fun a => each vb (fun b => [X [A; B] [a; b; i; j]])))).
Definition dump_bb := each ob (fun i => each ob (fun j => each vb (fun a => each vb (fun b => [X [B; B] [a; b; i; j]])))).
Definition dump_aaa := each oa (fun i => each oa (fun j => each oa (fun k => each va (fun a => each va (fun b => each va (fun c => [X [A; A; A] [a; b; c; i; j; k]])))))).
Definition dump_aab := each oa (fun i => each oa (fun j => each ob (fun k => each va (fun a => each va (fun b => each vb (fun c => [X [A; A; B] [a; b; c; i; j; k]])))))).
Definition dump_abb := each oa (fun i => each ob (fun j => each ob (fun k => each va (fun a => each vb (fun b => each vb (fun c => [X [A; B; B] [a; b; c; i; j; k]])))))).
Definition dump_bbb := each ob (fun i => each ob (fun j => each ob (fun k => each vb (fun a => each vb (fun b => each vb (fun c => [X [B; B; B] [a; b; c; i; j; k]])))))).
(** the alpha-alpha-beta block with its second pair exchanged with the third: the beta indices come in the middle *)
Definition dump_aba := each oa (fun i => each ob (fun j => each oa (fun k => each va (fun a => each vb (fun b => each va (fun c => [X [A; A; B] [a; c; b; i; k; j]])))))).

(** What the reader expects of the files of excited states and of other types *)
Definition dump (order : nat) : list R :=
  (dump_a ++ dump_b) ++ (if 2 <=? order then dump_aa ++ dump_ab ++ dump_bb else [])%nat
  ++ (if 3 <=? order then dump_aaa ++ dump_aab ++ dump_abb ++ dump_bbb else [])%nat.
(** and of the ground-state file *)
Definition dump_T (order : nat) : list R :=
  (dump_a ++ dump_b) ++ (if 2 <=? order then map Ropp (dump_aa ++ dump_bb ++ dump_ab) else [])%nat
  ++ (if 3 <=? order then map Ropp (dump_aaa ++ dump_bbb ++ dump_aba ++ dump_abb) else [])%nat.
End Dump.

(** Index tuples of a block *)
Definition within (s : asys) (b : block) (i : list nat) : Prop := Forall2 (fun x n => (x < n)%nat) i (map (nu s) b ++ map (no s) b).
Definition same_amplitudes (s : asys) (order : nat) (X Y : op) : Prop := forall b i, In b (blocks order) -> within s b i -> X b i = Y b i.
