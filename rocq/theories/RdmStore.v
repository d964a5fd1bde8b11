(** Storage of density matrices in the driver: ccpy/drivers/driver.py lines 109 and 2364-2368. *)
From Coq Require Import Arith List Lia Bool.
Import ListNotations.
Set Implicit Arguments.

Section Store.
Variable D : Type.               (* density matrices *)
Variable calc : nat -> D.        (* istate |-> calc_rdm1(self.T, self.L[istate], self.system) *)

(** Python lists of references: a heap of row objects, and for every outer position the address of its row *)
Record table := mkTable { heap : nat -> list (option D); rowref : list nat }.

(** driver.py line 109: [[None] * n] * n evaluates [None] * n once and repeats the reference to that one row *)
Definition init_table (n : nat) : table := mkTable (fun _ => repeat None n) (repeat 0 n).

Fixpoint list_set (A : Type) (l : list A) (k : nat) (x : A) : option (list A) :=
  match l, k with
  | [], _ => None
  | _ :: r, 0 => Some (x :: r)
  | y :: r, S k' => match list_set r k' x with Some r' => Some (y :: r') | None => None end
  end.
(** self.rdm1[i][j] = x: IndexError is None *)
Definition set_entry (t : table) (i j : nat) (x : D) : option table :=
  match nth_error (rowref t) i with
  | None => None
  | Some a => match list_set (heap t a) j (Some x) with
              | None => None
              | Some r => Some (mkTable (fun b => if Nat.eqb b a then r else heap t b) (rowref t))
              end
  end.
(** self.rdm1[i][j] *)
Definition get_entry (t : table) (i j : nat) : option (option D) :=
  match nth_error (rowref t) i with None => None | Some a => nth_error (heap t a) j end.

Definition bind (A B : Type) (o : option A) (f : A -> option B) : option B := match o with Some x => f x | None => None end.
(** run_rdm1, lines 2366-2368 *)
Definition run_inner (i : nat) (js : list nat) (t : option table) : option table :=
  fold_left (fun t j => bind t (fun t => set_entry t i j (calc i))) js t.
Definition run_rdm1 (states : list nat) (t : table) : option table :=
  fold_left (fun t i => run_inner i states t) states (Some t).

(* ---- proofs *)
Lemma list_set_some (A : Type) (l : list A) k x : k < length l -> exists r, list_set l k x = Some r /\ length r = length l /\
  forall j, nth_error r j = if Nat.eqb j k then Some x else nth_error l j.
Proof.
  revert k. induction l as [|y l IH]; intros k Hk; simpl in *; [lia|]. destruct k.
  - exists (x :: l). repeat split. intros [|j]; reflexivity.
  - destruct (IH k ltac:(lia)) as (r & E & L & G). rewrite E. exists (y :: r). repeat split; simpl; [lia|]. intros [|j]; simpl; [reflexivity|apply G].
Qed.
Definition shared (n : nat) (t : table) : Prop := rowref t = repeat 0 n /\ length (heap t 0) = n.
Lemma get_shared n t i j : shared n t -> i < n -> get_entry t i j = nth_error (heap t 0) j.
Proof. intros [E _] Hi. unfold get_entry. rewrite E, nth_error_repeat by exact Hi. reflexivity. Qed.
Lemma set_shared n t i j x : shared n t -> i < n -> j < n -> exists t', set_entry t i j x = Some t' /\ shared n t' /\
  forall k, nth_error (heap t' 0) k = if Nat.eqb k j then Some (Some x) else nth_error (heap t 0) k.
Proof.
  intros [E L] Hi Hj. unfold set_entry. rewrite E, nth_error_repeat by exact Hi.
  destruct (list_set_some (heap t 0) (k := j) (Some x) ltac:(lia)) as (r & Er & Lr & G). rewrite Er. eexists. split; [reflexivity|]. split; [split; simpl; lia || auto|exact G].
Qed.
Lemma inner_shared n i js : forall t, shared n t -> i < n -> Forall (fun j => j < n) js -> exists t', run_inner i js (Some t) = Some t' /\ shared n t' /\
  forall k, nth_error (heap t' 0) k = if existsb (Nat.eqb k) js then Some (Some (calc i)) else nth_error (heap t 0) k.
Proof.
  induction js as [|j js IH]; intros t Ht Hi Hj; [exists t; auto|]. inversion Hj; subst.
  destruct (set_shared (calc i) Ht Hi H1) as (t1 & E1 & S1 & G1). destruct (IH t1 S1 Hi H2) as (t2 & E2 & S2 & G2).
  exists t2. unfold run_inner in *. simpl. rewrite E1. split; [exact E2|]. split; [exact S2|]. intros k. rewrite G2, G1. simpl. destruct (Nat.eqb k j), (existsb (Nat.eqb k) js); reflexivity.
Qed.
Lemma outer_shared n js : Forall (fun j => j < n) js -> forall is t, shared n t -> Forall (fun j => j < n) is -> exists t',
  fold_left (fun t i => run_inner i js t) is (Some t) = Some t' /\ shared n t' /\
  forall k, nth_error (heap t' 0) k = if existsb (Nat.eqb k) js then match rev is with i :: _ => Some (Some (calc i)) | [] => nth_error (heap t 0) k end else nth_error (heap t 0) k.
Proof.
  intros Hj. induction is as [|i is IH]; intros t Ht Hi.
  - exists t. split; [reflexivity|]. split; [exact Ht|]. intros k. simpl. now destruct existsb.
  - inversion Hi; subst. destruct (inner_shared Ht H1 Hj) as (t1 & E1 & S1 & G1). destruct (IH t1 S1 H2) as (t2 & E2 & S2 & G2).
    exists t2. simpl. rewrite E1. split; [exact E2|]. split; [exact S2|]. intros k. rewrite G2, G1.
    destruct (existsb (Nat.eqb k) js); [|reflexivity]. destruct (rev is) as [|i' r] eqn:Er; simpl; reflexivity.
Qed.
End Store.

(** What the user finds after computing densities for the states of a list (all below the number of states the driver was created for): every entry in the
    column of a listed state holds the density of the LAST listed state, whatever the row; other columns keep what they had. *)
Theorem C41_density_of_last_state (D : Type) (calc : nat -> D) n states t last : Forall (fun i => i < n) (states ++ [last]) ->
  shared n t -> exists t', run_rdm1 calc (states ++ [last]) t = Some t' /\ shared n t' /\
    forall i j, i < n -> get_entry t' i j = if existsb (Nat.eqb j) (states ++ [last]) then Some (Some (calc last)) else get_entry t i j.
Proof.
  intros Hs Ht. destruct (outer_shared calc Hs Ht Hs) as (t' & E & S & G). exists t'. split; [exact E|]. split; [exact S|].
  intros i j Hi. rewrite (get_shared j S Hi), (get_shared j Ht Hi), G, rev_app_distr. reflexivity.
Qed.
(** Reachable from a new driver *)
Theorem C41_initial (D : Type) n : shared n (init_table D n) /\ forall i j, i < n -> j < n -> get_entry (init_table D n) i j = Some None.
Proof.
  assert (S : shared n (init_table D n)) by (split; [reflexivity|simpl; apply repeat_length]). split; [exact S|]. intros i j Hi Hj.
  rewrite (get_shared j S Hi). simpl. now rewrite nth_error_repeat.
Qed.
(** Hence "rdm1[i][i] is the density of state i" fails as soon as two states with different densities are computed, in one call or in two *)
Theorem C41_own_density_refuted (D : Type) (calc : nat -> D) : calc 0 <> calc 1 -> forall n, 2 <= n ->
  (exists t, run_rdm1 calc [0; 1] (init_table D n) = Some t /\ get_entry t 0 0 = Some (Some (calc 1)) /\ get_entry t 0 0 <> Some (Some (calc 0))) /\
  (exists t1 t2, run_rdm1 calc [0] (init_table D n) = Some t1 /\ run_rdm1 calc [1] t1 = Some t2 /\ get_entry t2 1 0 = Some (Some (calc 0)) /\ get_entry t2 0 1 = Some (Some (calc 1))).
Proof.
  intros Hc n Hn. assert (S := proj1 (C41_initial D n)). split.
  - destruct (C41_density_of_last_state calc (n := n) [0] 1 ltac:(simpl; repeat constructor; lia) S) as (t & E & _ & G). exists t.
    split; [exact E|]. rewrite G by lia. simpl. split; [reflexivity|]. intros F. injection F. intros F'. now apply Hc.
  - destruct (C41_density_of_last_state calc (n := n) [] 0 ltac:(simpl; repeat constructor; lia) S) as (t1 & E1 & S1 & G1).
    destruct (C41_density_of_last_state calc (n := n) [] 1 ltac:(simpl; repeat constructor; lia) S1) as (t2 & E2 & S2 & G2).
    exists t1, t2. split; [exact E1|]. split; [exact E2|]. rewrite !G2 by lia. simpl. rewrite G1 by lia. split; reflexivity.
Qed.
(** With one state everything is as expected *)
Example C41_instance : run_rdm1 (fun i => i + 10) [0] (init_table nat 3) <> None /\
  option_map (fun t => (get_entry t 0 0, get_entry t 1 1)) (run_rdm1 (fun i => i + 10) [0; 1] (init_table nat 3)) = Some (Some (Some 11), Some (Some 11)).
Proof. split; [discriminate|reflexivity]. Qed.
Print Assumptions C41_density_of_last_state.
Print Assumptions C41_initial.
Print Assumptions C41_own_density_refuted.
