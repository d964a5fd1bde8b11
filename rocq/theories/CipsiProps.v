(** Reading P spaces from determinant files (C49). *)
From Coq Require Import List ZArith NArith Lia Bool Sorting.Sorted Permutation.
From Verif Require Import CipsiModel CipsiSpec CipsiProofs CipsiQmc.
Import ListNotations.
Local Open Scope Z_scope.

(** A determinant of the right electron numbers has exactly one description as an excitation. *)
Theorem C49_one_description : forall s D, valid_sys s -> is_det s D ->
  exists na e, describes s na e D /\ forall na' e', describes s na' e' D -> na' = na /\ e' = e.
Proof.
  intros s D V H. pose proof V as (Vab & Va & _). assert (Vb : (nob s <= norb s)%nat) by lia.
  exists (ena s D), (eun s D, eocc s D). pose proof (describes_eq s D Va Vb H) as DE.
  split; [exact DE|]. intros na' e' H'. apply (describes_unique s D); assumption.
Qed.

(** The excitation lists of a file of determinants are, for each spin case, the triples of the file in
    file order (an empty list is replaced by the one-row array of ones), and the counts returned are the
    numbers of entries of each irrep. *)
Theorem C49_triples_exact : forall s file, valid_sys s -> Forall (fun l => is_det s (det_of l)) file ->
  exists exc counts, get_triples_pspace_from_cipsi s file = Some (exc, counts) /\
    forall na, exists es, listed s 3 na file es /\
      (es <> [] -> exc na = es) /\ (es = [] -> exc na = [([1; 1; 1], [1; 1; 1])]) /\
      (forall v, counts v na = length (filter (fun e => N.eqb (irrep_of s na e) v) es)).
Proof.
  intros s file V F. destruct (read_lines_ok 3 s file acc0 V F) as [a [R [C L]]].
  { intros v na. reflexivity. }
  unfold get_triples_pspace_from_cipsi, read_cipsi. rewrite R.
  eexists _, _. split; [reflexivity|]. intro na. destruct (L na) as [es [E1 E2]]. exists es.
  cbn [acc0 excs app] in E1. split; [assumption|]. rewrite E1. repeat split.
  - destruct es; [congruence|reflexivity].
  - intros ->. reflexivity.
  - intro v. rewrite C, E1. reflexivity.
Qed.

Theorem C49_quadruples_exact : forall s file, valid_sys s -> Forall (fun l => is_det s (det_of l)) file ->
  exists exc counts, get_quadruples_pspace_from_cipsi s file = Some (exc, counts) /\
    forall na, exists es, listed s 4 na file es /\
      (es <> [] -> exc na = es) /\ (es = [] -> exc na = [([1; 1; 1; 1], [1; 1; 1; 1])]) /\
      (forall v, counts v na = length (filter (fun e => N.eqb (irrep_of s na e) v) es)).
Proof.
  intros s file V F. destruct (read_lines_ok 4 s file acc0 V F) as [a [R [C L]]].
  { intros v na. reflexivity. }
  unfold get_quadruples_pspace_from_cipsi, read_cipsi. rewrite R.
  eexists _, _. split; [reflexivity|]. intro na. destruct (L na) as [es [E1 E2]]. exists es.
  cbn [acc0 excs app] in E1. split; [assumption|]. rewrite E1. repeat split.
  - destruct es; [congruence|reflexivity].
  - intros ->. reflexivity.
  - intro v. rewrite C, E1. reflexivity.
Qed.

(** The order and multiplicity of [listed] are forced: one list only fits. *)
Theorem C49_listed_determined : forall s rank na file es es', valid_sys s ->
  listed s rank na file es -> listed s rank na file es' -> es = es'.
Proof.
  intros s rank na file es es' V H. pose proof V as (Vab & Va & _). assert (Vb : (nob s <= norb s)%nat) by lia.
  revert es'. induction H as [|l r e es D R H IH|l r es D H IH]; intros es' H'.
  - now inversion H'.
  - inversion H' as [|? ? e' ? D' R' H1|? ? ? D' H1]; subst.
    + destruct (describes_unique s _ _ _ _ _ Va Vb D D') as [_ ->]. f_equal. now apply IH.
    + exfalso. now apply (D' e D).
  - inversion H' as [|? ? e' ? D' R' H1|? ? ? D' H1]; subst.
    + exfalso. now apply (D e' D').
    + now apply IH.
Qed.

(** In a closed-shell system the first triple with an orbital outside the system silently ends the
    reading: whatever follows it is ignored. *)
Theorem C49_rest_ignored_refuted : forall s f1 l f2, valid_sys s -> noa s = nob s ->
  Forall (fun x => is_det s (det_of x)) f1 ->
  electrons s (det_of l) -> of_rank s 3 (det_of l) ->
  (exists x, In x (det_of l) /\ ~ 1 <= x <= 2 * Z.of_nat (norb s)) ->
  read_cipsi 3 s (f1 ++ l :: f2) = read_cipsi 3 s f1.
Proof.
  intros s f1 l f2 V CS F E R X. destruct (read_lines_ok 3 s f1 acc0 V F) as [a [R1 _]].
  { intros v na. reflexivity. }
  unfold read_cipsi. rewrite (read_lines_app 3 s f1 (l :: f2) acc0 a R1).
  - cbn [read_lines]. now rewrite (read_line_stop 3 s l a V CS E R X).
  - intros y Hy b b'. rewrite Forall_forall in F. specialize (F y Hy).
    destruct (Nat.eq_dec (length (eun s (det_of y))) 3).
    + now rewrite read_line_take.
    + now rewrite read_line_skip.
Qed.

(** A determinant that changes the number of alpha electrons, or that does not have as many particles as
    holes, makes the reader raise. *)
Theorem C49_wrong_spin_raises : forall s l a,
  of_rank s 3 (det_of l) -> length (setdiff (HF s) (det_of l)) = 3%nat ->
  length (odds (setdiff (det_of l) (HF s))) <> length (odds (setdiff (HF s) (det_of l))) ->
  read_line 3 s l a = Raise.
Proof.
  intros s l a R L N. apply of_rank_len in R. unfold read_line. fold (det_of l).
  pose proof (rank_eq s (det_of l)) as RE. rewrite RE, R. cbn [Nat.eqb negb].
  unfold indices, get_spincase, get_excits_from, get_excits_to. unfold get_excit_rank in RE.
  rewrite L, RE, R. cbn [Nat.eqb negb].
  destruct (Nat.eqb_spec (length (odds (setdiff (HF s) (det_of l)))) (length (odds (setdiff (det_of l) (HF s)))));
    [congruence|reflexivity].
Qed.

(** Walker lists: for a closed-shell system the four lists hold exactly the (ordered) index sextuples whose
    spatial orbitals are those of some listed triple with enough walkers, irrespective of spins. *)
Theorem C49_qmc_exact : forall s target thr file, valid_sys s -> noa s = nob s ->
  Forall (fun l => (2 <= length l)%nat /\ is_det s (det_of l)) file ->
  exists t aaa aab abb bbb, get_pspace_from_qmc s target thr file = Some (t, aaa, aab, abb, bbb) /\
    forall a b c i j k : nat, (1 <= a -> 1 <= b -> 1 <= c -> 1 <= i -> 1 <= j -> 1 <= k ->
      (In [a; b; c; i; j; k] aaa <-> a < b < c /\ i < j < k /\ covered s target thr file a b c i j k) /\
      (In [a; b; c; i; j; k] aab <-> a < b /\ i < j /\ covered s target thr file a b c i j k) /\
      (In [a; b; c; i; j; k] abb <-> b < c /\ j < k /\ covered s target thr file a b c i j k) /\
      (In [a; b; c; i; j; k] bbb <-> a < b < c /\ i < j < k /\ covered s target thr file a b c i j k))%nat.
Proof.
  intros s target thr file V CS F. rewrite Forall_forall in F.
  destruct (foldo_hits (qmc_line s target thr) (hitl s target thr) file) with (t := fun _ _ _ _ _ _ : nat => false)
    as [t [E1 H1]].
  { intros l Hl t. destruct (F l Hl). now apply qmc_line_ok. }
  unfold get_pspace_from_qmc.
  assert (Nat.eqb (noa s) (nob s) && Nat.eqb (nua s) (nub s) = true)%bool as ->.
  { unfold nua, nub. now rewrite CS, !Nat.eqb_refl. }
  cbn [negb]. rewrite E1. do 5 eexists. split; [reflexivity|].
  intros [|a] [|b] [|c] [|i] [|j] [|k] Ha Hb Hc Hi Hj Hk; try lia.
  fold (ent a b c i j k). unfold extract_bbb. rewrite aaa_In, aab_In, abb_In.
  assert (T : t a b c i j k = true <-> covered s target thr file (S a) (S b) (S c) (S i) (S j) (S k)).
  { rewrite H1, <- covered_iff. split; [intros [? | ?]; [discriminate|assumption]|tauto]. }
  rewrite T.
  assert (RG := covered_range s target thr file (S a) (S b) (S c) (S i) (S j) (S k) V CS).
  split; [|split; [|split]]; split; intro HH; repeat match goal with H : _ /\ _ |- _ => destruct H end; repeat split; try assumption;
    try (match goal with H : covered _ _ _ _ _ _ _ _ _ _ |- _ => specialize (RG H) end); lia.
Qed.

(** ** Concrete cases *)
Definition demo_s : sys := mkSys 3 3 6 [0; 2; 0; 3; 2; 1]%N 4 0%N.
Lemma demo_valid : valid_sys demo_s.
Proof.
  unfold valid_sys, demo_s. cbn. repeat split; try lia. exists 2%nat. split; [reflexivity|]. split; [|cbn; lia].
  intros v H. repeat (destruct H as [<- | H]; [cbn; lia|]). contradiction.
Qed.
(** A double, an aab triple, the aaa triple, the aab triple again. *)
Definition demo_file : list (list Z) :=
  [[1; 9; 1; 2; 3; 4; 7; 8]; [2; 8; 1; 6; 7; 9; 8; 4]; [3; -5; 7; 9; 11; 2; 4; 6]; [4; 1; 9; 7; 8; 4; 6; 1]].
Lemma demo_dets : Forall (fun l => is_det demo_s (det_of l)) demo_file.
Proof.
  unfold demo_file. repeat constructor; cbn; try lia; try (intuition lia);
    match goal with H : _ |- _ => cbn in H; intuition lia end.
Qed.
Example C49_instance :
  match get_triples_pspace_from_cipsi demo_s demo_file with
  | Some (exc, counts) =>
      exc 3%nat = [([1; 2; 3], [1; 2; 3])] /\
      exc 2%nat = [([1; 2; 1], [2; 3; 1]); ([1; 2; 1], [2; 3; 1])] /\
      exc 1%nat = [([1; 1; 1], [1; 1; 1])] /\ counts 0%N 2%nat = 2%nat /\ counts 2%N 3%nat = 1%nat
  | None => False
  end.
Proof. cbn. repeat split. Qed.

(** One bad line hides the rest of the file. *)
Example C49_instance_stop :
  get_triples_pspace_from_cipsi demo_s ([1; 1; 14; 4; 7; 9; 1; 6] :: demo_file) <> None /\
  match read_cipsi 3 demo_s ([1; 1; 14; 4; 7; 9; 1; 6] :: demo_file) with
  | Some a => excs a 3%nat = [] /\ excs a 2%nat = []
  | None => False
  end.
Proof. split; [discriminate|]. cbn. split; reflexivity. Qed.

(** A single aab triple with enough walkers also puts an aaa and a bbb triple in the P space. *)
Theorem C49_qmc_spin_refuted : exists s file,
  valid_sys s /\ noa s = nob s /\ Forall (fun l => (2 <= length l)%nat /\ is_det s (det_of l)) file /\
  match get_pspace_from_qmc s None 1 file with
  | Some (_, aaa, _, _, _) => In [1; 2; 3; 1; 2; 3]%nat aaa
  | None => False
  end /\
  (forall l na e, In l file -> describes s na e (det_of l) -> na = 2%nat).
Proof.
  exists demo_s, [[1; 5; 1; 7; 9; 12; 4; 6]].
  assert (ID : is_det demo_s [1; 7; 9; 12; 4; 6]).
  { split; [split; [|split; reflexivity]|].
    - repeat constructor; cbn; intuition lia.
    - intros x H. cbn in H. change (Z.of_nat (norb demo_s)) with 6. intuition lia. }
  split; [exact demo_valid|]. split; [reflexivity|]. split; [|split].
  - constructor; [|constructor]. split; [cbn; lia|exact ID].
  - vm_compute. tauto.
  - intros l na e [<- | []] H. change (det_of _) with [1; 7; 9; 12; 4; 6] in H.
    assert (V1 : (noa demo_s <= norb demo_s)%nat) by (cbn; lia).
    assert (V2 : (nob demo_s <= norb demo_s)%nat) by (cbn; lia).
    now destruct (describes_unique demo_s _ _ _ _ _ V1 V2 H (describes_eq _ _ V1 V2 ID)) as [-> _].
Qed.

Print Assumptions C49_one_description.
Print Assumptions C49_triples_exact.
Print Assumptions C49_quadruples_exact.
Print Assumptions C49_listed_determined.
Print Assumptions C49_rest_ignored_refuted.
Print Assumptions C49_wrong_spin_raises.
Print Assumptions C49_qmc_exact.
Print Assumptions C49_qmc_spin_refuted.
