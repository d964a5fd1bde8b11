(** General list and arithmetic lemmas used by several topics (no model content). *)
From Coq Require Import List Lia Arith ZArith Permutation.
Import ListNotations.

Lemma skipn_skipn : forall {A} (a b : nat) (l : list A), skipn a (skipn b l) = skipn (b + a) l.
Proof.
  intros A a b. revert a. induction b; intros a l; cbn; [reflexivity|].
  destruct l; [now rewrite skipn_nil|apply IHb].
Qed.

Lemma firstn_skipn_nth : forall {A} (d : A) l n, n < length l ->
  skipn n l = nth n l d :: skipn (S n) l.
Proof.
  induction l; intros n H; cbn in *; [lia|]. destruct n; [reflexivity|].
  cbn. apply IHl. lia.
Qed.

Lemma nth_skipn : forall {A} (d : A) a l n, nth n (skipn a l) d = nth (a + n) l d.
Proof.
  induction a; intros l n; cbn; [reflexivity|]. destruct l; [now destruct n|apply IHa].
Qed.

Lemma nth_firstn : forall {A} (d : A) k l n, n < k -> nth n (firstn k l) d = nth n l d.
Proof.
  induction k; intros l n H; [lia|]. destruct l; [reflexivity|]. destruct n; [reflexivity|].
  cbn. apply IHk. lia.
Qed.

Lemma list_eq_nth : forall {A} (d : A) l1 l2, length l1 = length l2 ->
  (forall i, i < length l1 -> nth i l1 d = nth i l2 d) -> l1 = l2.
Proof.
  induction l1; intros [|b l2] H1 H2; cbn in *; try lia; [reflexivity|].
  f_equal; [apply (H2 0); lia|]. apply IHl1; [lia|]. intros i Hi. apply (H2 (S i)). lia.
Qed.

Lemma map_nth_seq : forall {A} (d : A) l, map (fun i => nth i l d) (seq 0 (length l)) = l.
Proof.
  intros A d l. apply (list_eq_nth d).
  - now rewrite map_length, seq_length.
  - intros i Hi. rewrite map_length, seq_length in Hi.
    rewrite (nth_indep _ d (nth (length l) l d)) by (rewrite map_length, seq_length; lia).
    rewrite (map_nth (fun i => nth i l d)). now rewrite seq_nth.
Qed.
