(** Specification vocabulary for the moment selection. *)
From Coq Require Import List Arith Reals.
From Verif Require Import SelectModel SelectSpec.
Import ListNotations.
Local Open Scope R_scope.

(** Size of a moment. *)
Definition size (x : entry) : R := Rabs (snd x).
(** Candidates: (triple, moment) pairs; no candidate is the never-set row and no triple is offered twice. *)
Definition candidates_ok (streams : list (list entry)) : Prop :=
  NoDup (map fst (concat streams)) /\ ~ In (fst unset) (map fst (concat streams)).

Section Dropped.
Variables (buf_fact num_add : nat) (min_thresh : R).
(** Candidates above the threshold that arrive when the buffer is full, along a run. *)
Fixpoint dropped_in (b : buffer) (stream : list entry) : list entry :=
  match stream with
  | [] => []
  | x :: r =>
      (if Rle_dec (size x) min_thresh then [] else if (buf_fact * num_add <? b_fill b)%nat then [x] else [])
      ++ dropped_in (offer buf_fact num_add min_thresh b x) r
  end.
(** The buffer as a spin case sees it. *)
Definition entering (b : buffer) : buffer :=
  {| b_entries := b_entries b; b_fill := b_fill b; b_min := size (nth (num_add - 1) (b_entries b) unset) |}.
Fixpoint dropped_from (b : buffer) (streams : list (list entry)) : list entry :=
  match streams with
  | [] => []
  | s :: r => dropped_in (entering b) s ++ dropped_from (spin_case_pass buf_fact num_add min_thresh b s) r
  end.
Definition dropped (streams : list (list entry)) : list entry :=
  dropped_from {| b_entries := repeat unset (buf_fact * num_add); b_fill := 1; b_min := 0 |} streams.
(** Entry number num_add of the buffer is the smallest of the first num_add. *)
Definition threshold_sound (b : buffer) : Prop :=
  forall q, (q < num_add)%nat -> size (nth (num_add - 1) (b_entries b) unset) <= size (nth q (b_entries b) unset).
End Dropped.
