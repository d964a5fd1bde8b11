(** The Slater-Condon rules, stated on the occupied alpha and beta orbitals of the two determinants. *)
From Coq Require Import List ZArith Reals.
From Verif Require Import HilbertModel HilbertSpec.
Import ListNotations.
Local Open Scope R_scope.

(** [P] are exactly the orbitals of [l] that are not in [l']. *)
Definition only (P l l' : list Z) : Prop := forall q, In q P <-> In q l /\ ~ In q l'.

Inductive slater_condon (H : hint) : list Z -> list Z -> list Z -> list Z -> R -> Prop :=
| sc_same : forall la lb, slater_condon H la lb la lb
    (sum la (fun i => H_a H i i) + sum lb (fun i => H_b H i i)
     + / 2 * sum la (fun i => sum la (fun j => H_aa H i j i j)) + sum la (fun i => sum lb (fun j => H_ab H i j i j))
     + / 2 * sum lb (fun i => sum lb (fun j => H_bb H i j i j)))
| sc_a : forall la la' lb a i, only [a] la la' -> only [i] la' la -> slater_condon H la lb la' lb
    ((H_a H a i + sum la' (fun k => H_aa H a k i k) + sum lb (fun k => H_ab H a k i k)) * element [a] [i] la la')
| sc_b : forall la lb lb' a i, only [a] lb lb' -> only [i] lb' lb -> slater_condon H la lb la lb'
    ((H_b H a i + sum lb' (fun k => H_bb H a k i k) + sum la (fun k => H_ab H k a k i)) * element [a] [i] lb lb')
| sc_aa : forall la la' lb a b i j, only [a; b] la la' -> only [i; j] la' la -> slater_condon H la lb la' lb
    (H_aa H a b i j * element [a; b] [i; j] la la')
| sc_ab : forall la la' lb lb' a b i j, only [a] la la' -> only [i] la' la -> only [b] lb lb' -> only [j] lb' lb ->
    slater_condon H la lb la' lb' (H_ab H a b i j * (element [a] [i] la la' * element [b] [j] lb lb'))
| sc_bb : forall la lb lb' a b i j, only [a; b] lb lb' -> only [i; j] lb' lb -> slater_condon H la lb la lb'
    (H_bb H a b i j * element [a; b] [i; j] lb lb')
| sc_more : forall la lb la' lb' P Q, NoDup P -> NoDup Q -> only P la la' -> only Q lb lb' -> (2 < length P + length Q)%nat ->
    slater_condon H la lb la' lb' 0.
