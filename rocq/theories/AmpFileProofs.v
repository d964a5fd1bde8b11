(** Proofs about the amplitude reader. *)
From Coq Require Import List Arith ZArith Reals Bool Lia Lra FinFun.
From Verif Require Import AmpFileModel AmpFileSpec.
Import ListNotations.

(** ** Index tuples *)
Lemma tuples_in : forall dims t, In t (tuples dims) <-> Forall2 lt t dims.
Proof.
  induction dims as [|d r IH]; intro t; cbn.
  - split; [intros [<-|[]]; constructor|]. intro H. inversion H. now left.
  - rewrite in_flat_map. split.
    + intros [i [Hi H]]. apply in_map_iff in H. destruct H as [t' [<- H]]. apply in_seq in Hi. constructor; [lia|now apply IH].
    + intro H. inversion H; subst. exists x. split; [apply in_seq; lia|]. apply in_map. now apply IH.
Qed.
Lemma NoDup_app' : forall {A} (l1 l2 : list A), NoDup l1 -> NoDup l2 -> (forall x, In x l1 -> ~ In x l2) -> NoDup (l1 ++ l2).
Proof.
  induction l1 as [|x l1 IH]; intros l2 N1 N2 D; [exact N2|]. inversion N1; subst. cbn. constructor.
  - rewrite in_app_iff. intros [?|?]; [contradiction|]. apply (D x); [now left|assumption].
  - apply IH; try assumption. intros y Hy. apply D. now right.
Qed.
Lemma tuples_NoDup : forall dims, NoDup (tuples dims).
Proof.
  induction dims as [|d r IH]; cbn; [constructor; [intros []|constructor]|].
  generalize 0. induction d as [|d IHd]; intro m; cbn; [constructor|]. apply NoDup_app'.
  - apply Injective_map_NoDup; [|exact IH]. intros x y E. congruence.
  - apply IHd.
  - intros x H1 H2. apply in_map_iff in H1. destruct H1 as [t [<- _]]. apply in_flat_map in H2. destruct H2 as [i [Hi H2]].
    apply in_map_iff in H2. destruct H2 as [t' [E _]]. apply in_seq in Hi. inversion E. lia.
Qed.
Lemma map_tuples : forall {B} (f : list nat -> B) d r, map f (tuples (d :: r)) = flat_map (fun i => map (fun t => f (i :: t)) (tuples r)) (seq 0 d).
Proof.
  intros B f d r. cbn [tuples]. generalize 0. induction d as [|d IH]; intro m; [reflexivity|]. cbn. rewrite map_app, map_map. f_equal. apply IH.
Qed.
Lemma len_tuples : forall dims, length (tuples dims) = prod dims.
Proof.
  induction dims as [|d r IH]; [reflexivity|]. cbn [tuples prod fold_right]. fold (prod r). rewrite <- IH. generalize 0. induction d as [|d IHd]; intro m; [reflexivity|].
  cbn. rewrite app_length, map_length, IHd. reflexivity.
Qed.
Lemma prod_app : forall a b, prod (a ++ b) = prod a * prod b.
Proof. unfold prod. induction a as [|x a IH]; intro b; cbn [app fold_right]; [ring|]. rewrite IH. ring. Qed.
Lemma fits_iff : forall i d, fits i d = true <-> Forall2 lt i d.
Proof.
  induction i as [|x i IH]; intros [|n d]; cbn [fits]; try (split; [discriminate|intro H; inversion H]).
  - split; auto.
  - rewrite andb_true_iff, IH, Nat.ltb_lt. split; [intros [? ?]; now constructor|intro H; inversion H; auto].
Qed.

(** ** Running the stores *)
Definition key (w : block * list nat * R) : block * list nat := fst w.
Definition sg (w : block * list nat * R) : R := snd w.
Lemma set_same : forall X b i v, set X b i v b i = v.
Proof. intros. unfold set, is_block, is_idx. destruct (list_eq_dec _ b b), (list_eq_dec _ i i); try contradiction. reflexivity. Qed.
Lemma set_other : forall X b i v b' i', (b, i) <> (b', i') -> set X b i v b' i' = X b' i'.
Proof. intros. unfold set, is_block, is_idx. destruct (list_eq_dec _ b b'), (list_eq_dec _ i i'); subst; try contradiction; reflexivity. Qed.

Lemma run_reads : forall s file off (v : nat -> R) ws X n,
  NoDup (map key ws) -> Forall (fun w => fits (snd (key w)) (shape s (fst (key w))) = true) ws ->
  (forall k, k < length ws -> getitem file (Z.of_nat (n + k) + off) = Some (v (n + k))) ->
  exists X', run s file off ws (X, n) = Some (X', n + length ws) /\
    (forall k w, nth_error ws k = Some w -> X' (fst (key w)) (snd (key w)) = (sg w * v (n + k)%nat)%R) /\
    (forall b i, ~ In (b, i) (map key ws) -> X' b i = X b i).
Proof.
  intros s file off v. induction ws as [|[[b i] g] ws IH]; intros X n ND F G.
  - exists X. cbn. rewrite Nat.add_0_r. repeat split; auto. intros k w H. destruct k; discriminate H.
  - inversion ND as [|? ? NI ND']; subst. inversion F as [|? ? F1 F2]; subst. cbn [key fst snd] in F1.
    assert (G0 := G 0 ltac:(cbn; lia)). rewrite Nat.add_0_r in G0. cbn [run store]. rewrite G0, F1.
    destruct (IH (set X b i (g * v n)%R) (S n) ND' F2) as [X' [R1 [R2 R3]]].
    { intros k Hk. replace (S n + k) with (n + S k) by lia. apply G. cbn. lia. }
    exists X'. split; [rewrite R1; do 2 f_equal; cbn; lia|]. split.
    + intros [|k] w H.
      * inversion H; subst w. cbn [key sg fst snd]. rewrite R3 by exact NI. rewrite set_same, Nat.add_0_r. reflexivity.
      * replace (n + S k) with (S n + k) by lia. now apply R2.
    + intros b' i' H. rewrite R3 by (intro K; apply H; now right). apply set_other. intros E. apply H. left. exact E.
Qed.

Definition image (Y : op) (ws : list (block * list nat * R)) : list R := map (fun w => (sg w * Y (fst (key w)) (snd (key w)))%R) ws.
Lemma run_image : forall s file off ws X Y,
  NoDup (map key ws) -> Forall (fun w => fits (snd (key w)) (shape s (fst (key w))) = true) ws -> Forall (fun w => (sg w * sg w = 1)%R) ws ->
  (forall k, k < length ws -> getitem file (Z.of_nat k + off) = nth_error (image Y ws) k) ->
  exists X' n, run s file off ws (X, 0) = Some (X', n) /\ (forall b i, In (b, i) (map key ws) -> X' b i = Y b i).
Proof.
  intros s file off ws X Y ND F S G.
  destruct (run_reads s file off (fun k => nth k (image Y ws) 0%R) ws X 0 ND F) as [X' [R1 [R2 _]]].
  { intros k Hk. cbn [Nat.add]. rewrite G by assumption. apply nth_error_nth'. unfold image. now rewrite map_length. }
  exists X', (0 + length ws). split; [exact R1|]. intros b i H. apply in_map_iff in H. destruct H as [w [E H]].
  apply In_nth_error in H. destruct H as [k Hk]. assert (Q := R2 k w Hk). cbn [Nat.add] in Q. rewrite E in Q. cbn [fst snd] in Q. rewrite Q.
  unfold image. assert (L : k < length ws) by (apply nth_error_Some; now rewrite Hk).
  rewrite (nth_error_nth _ _ _ (map_nth_error _ _ _ Hk)). rewrite E. cbn [fst snd]. rewrite Forall_forall in S. assert (W := S w (nth_error_In _ _ Hk)).
  rewrite <- Rmult_assoc, W. lra.
Qed.
Lemma run_fits : forall s file off ws st st', run s file off ws st = Some st' -> Forall (fun w => fits (snd (key w)) (shape s (fst (key w))) = true) ws.
Proof.
  intros s file off. induction ws as [|[[b i] g] ws IH]; intros [X n] st' H; [constructor|]. cbn [run store] in H.
  destruct (getitem _ _); [|discriminate]. destruct (fits i (shape s b)) eqn:E; [|discriminate]. constructor; [exact E|]. eapply IH; exact H.
Qed.

(** ** One loop *)
Definition good (s : asys) (blk : block) (ws : list (block * list nat * R)) : Prop :=
  (forall w, In w ws -> fst (key w) = blk /\ Forall2 lt (snd (key w)) (shape s blk) /\ (sg w * sg w = 1)%R) /\ NoDup (map key ws) /\
  (forall i, Forall2 lt i (shape s blk) -> In (blk, i) (map key ws)).

Lemma good_loop : forall s b blk tgt (perm : list nat -> list nat) (g : R),
  (forall t, In t (tuples (map (no s) b ++ map (nu s) b)) -> tgt t = (blk, perm t, g)) -> (g * g = 1)%R ->
  (forall t t', In t (tuples (map (no s) b ++ map (nu s) b)) -> In t' (tuples (map (no s) b ++ map (nu s) b)) -> perm t = perm t' -> t = t') ->
  (forall t, In t (tuples (map (no s) b ++ map (nu s) b)) -> Forall2 lt (perm t) (shape s blk)) ->
  (forall i, Forall2 lt i (shape s blk) -> exists t, In t (tuples (map (no s) b ++ map (nu s) b)) /\ perm t = i) ->
  good s blk (loop s b tgt).
Proof.
  intros s b blk tgt perm g E G I F C. unfold good, loop. split; [|split].
  - intros w H. apply in_map_iff in H. destruct H as [t [<- H]]. rewrite E by assumption. cbn. auto.
  - rewrite map_map. rewrite (map_ext_in _ (fun t => (blk, perm t))) by (intros t H; rewrite E by assumption; reflexivity).
    assert (ND := tuples_NoDup (map (no s) b ++ map (nu s) b)). revert ND I. generalize (tuples (map (no s) b ++ map (nu s) b)). clear. intro l.
    induction l as [|t l IH]; intros ND I; [constructor|]. inversion ND; subst. cbn. constructor.
    + intro H. apply in_map_iff in H. destruct H as [t' [E H]]. inversion E. assert (t' = t) by (apply I; [now right|now left|assumption]). subst. contradiction.
    + apply IH; [assumption|]. intros; apply I; [now right|now right|assumption].
  - intros i H. destruct (C i H) as [t [Ht <-]]. rewrite map_map. apply in_map_iff. exists t. split; [|exact Ht]. rewrite E by assumption. reflexivity.
Qed.

Ltac inv2 := repeat match goal with
  | H : Forall2 _ _ (_ :: _) |- _ => inversion H; subst; clear H
  | H : Forall2 _ _ [] |- _ => inversion H; subst; clear H
  end.
Ltac gl p := apply (good_loop _ _ _ _ p 1%R);
  [ intros t H; apply tuples_in in H; cbn in H; inv2; reflexivity
  | lra
  | intros t t' H H' E; apply tuples_in in H; apply tuples_in in H'; cbn in H, H'; inv2; cbn in E; congruence
  | intros t H; apply tuples_in in H; cbn in H; inv2; unfold shape; cbn [map app nu no]; repeat constructor; try assumption; try lia
  | intros t H; unfold shape in H; cbn [map app nu no] in H; inv2 ].
Ltac cov l := exists l; split; [apply tuples_in; cbn [map app nu no]; repeat constructor; try assumption; try lia|reflexivity].

Definition p2 (t : list nat) := match t with [i; a] => [a; i] | _ => [] end.
Definition p4 (t : list nat) := match t with [i; j; a; b] => [a; b; i; j] | _ => [] end.
Definition p6 (t : list nat) := match t with [i; j; k; a; b; c] => [a; b; c; i; j; k] | _ => [] end.
Definition p6x (t : list nat) := match t with [i; j; k; a; b; c] => [a; c; b; i; k; j] | _ => [] end.
Notation A := true. Notation B := false.

Section S.
Variable s : asys.
Definition la := loop s [A] (fun t => match t with [i; a] => ([A], [a; i], 1%R) | _ => ([], [], 0%R) end).
Definition lb := loop s [B] (fun t => match t with [i; a] => ([B], [a; i], 1%R) | _ => ([], [], 0%R) end).
Lemma good_a : good s [A] la.
Proof. gl p2. match goal with |- exists t, _ /\ _ = [?a; ?i] => cov [i; a] end. Qed.
Lemma good_b : good s [B] lb.
Proof. gl p2. match goal with |- exists t, _ /\ _ = [?a; ?i] => cov [i; a] end. Qed.
Definition l2 (T : bool) (b bT : block) := loop s b (fun t => match t with [i; j; a; b'] => if T then (bT, [a; b'; i; j], (-1)%R) else (b, [a; b'; i; j], 1%R) | _ => ([], [], 0%R) end).
Lemma good_2 : forall x y bT, good s [x; y] (l2 false [x; y] bT).
Proof. intros x y bT. unfold l2. cbv iota. gl p4. match goal with |- exists t, _ /\ _ = [?a; ?b; ?i; ?j] => cov [i; j; a; b] end. Qed.
Definition l3 (T : bool) (b bT : block) := loop s b (fun t => match t with [i; j; k; a; b'; c] => if T then (bT, [a; b'; c; i; j; k], (-1)%R) else (b, [a; b'; c; i; j; k], 1%R) | _ => ([], [], 0%R) end).
Definition l3x (T : bool) (b bT : block) := loop s b (fun t => match t with [i; j; k; a; b'; c] => if T then (bT, [a; c; b'; i; k; j], (-1)%R) else (b, [a; b'; c; i; j; k], 1%R) | _ => ([], [], 0%R) end).
Lemma good_3 : forall x y z bT, good s [x; y; z] (l3 false [x; y; z] bT).
Proof. intros x y z bT. unfold l3. cbv iota. gl p6. match goal with |- exists t, _ /\ _ = [?a; ?b; ?c; ?i; ?j; ?k] => cov [i; j; k; a; b; c] end. Qed.
Lemma good_3x : forall x y z bT, good s [x; y; z] (l3x false [x; y; z] bT).
Proof. intros x y z bT. unfold l3x. cbv iota. gl p6. match goal with |- exists t, _ /\ _ = [?a; ?b; ?c; ?i; ?j; ?k] => cov [i; j; k; a; b; c] end. Qed.

Lemma singles_eq : singles s = la ++ lb. Proof. reflexivity. Qed.
Lemma doubles_eq : forall T, doubles s T = l2 T [A; A] [A; A] ++ l2 T [A; B] [B; B] ++ l2 T [B; B] [A; B]. Proof. reflexivity. Qed.
Lemma triples_eq : forall T, triples s T = l3 T [A; A; A] [A; A; A] ++ l3 T [A; A; B] [B; B; B] ++ l3x T [A; B; B] [A; A; B] ++ l3 T [B; B; B] [A; B; B]. Proof. reflexivity. Qed.

(** closed shells *)
Hypothesis Ho : a_noa s = a_nob s.
Hypothesis Hu : a_nua s = a_nub s.
Lemma no_any : forall x, no s x = a_nob s. Proof. intros [|]; cbn; auto. Qed.
Lemma nu_any : forall x, nu s x = a_nub s. Proof. intros [|]; cbn; auto. Qed.
Ltac glT p := apply (good_loop _ _ _ _ p (-1)%R);
  [ intros t H; apply tuples_in in H; cbn in H; inv2; reflexivity
  | lra
  | intros t t' H H' E; apply tuples_in in H; apply tuples_in in H'; cbn in H, H'; inv2; cbn in E; congruence
  | intros t H; apply tuples_in in H; unfold shape; cbn [map app] in *; rewrite ?no_any, ?nu_any in *; inv2; repeat constructor; assumption
  | intros t H; unfold shape in H; cbn [map app] in H; rewrite ?no_any, ?nu_any in *; inv2 ].
Ltac covT l := exists l; split; [apply tuples_in; cbn [map app]; rewrite ?no_any, ?nu_any; repeat constructor; assumption|reflexivity].
Lemma good_2T : forall x y x' y', good s [x'; y'] (l2 true [x; y] [x'; y']).
Proof. intros. unfold l2. cbv iota. glT p4. match goal with |- exists t, _ /\ _ = [?a; ?b; ?i; ?j] => covT [i; j; a; b] end. Qed.
Lemma good_3T : forall x y z x' y' z', good s [x'; y'; z'] (l3 true [x; y; z] [x'; y'; z']).
Proof. intros. unfold l3. cbv iota. glT p6. match goal with |- exists t, _ /\ _ = [?a; ?b; ?c; ?i; ?j; ?k] => covT [i; j; k; a; b; c] end. Qed.
Lemma good_3xT : forall x y z x' y' z', good s [x'; y'; z'] (l3x true [x; y; z] [x'; y'; z']).
Proof. intros. unfold l3x. cbv iota. glT p6x. match goal with |- exists t, _ /\ _ = [?a; ?b; ?c; ?i; ?j; ?k] => covT [i; k; j; a; c; b] end. Qed.
End S.

(** ** Several loops *)
Definition goods (s : asys) (bs : list block) (ws : list (block * list nat * R)) : Prop :=
  (forall w, In w ws -> In (fst (key w)) bs /\ fits (snd (key w)) (shape s (fst (key w))) = true /\ (sg w * sg w = 1)%R) /\ NoDup (map key ws) /\
  (forall b i, In b bs -> Forall2 lt i (shape s b) -> In (b, i) (map key ws)).
Lemma goods_one : forall s b ws, good s b ws -> goods s [b] ws.
Proof.
  intros s b ws [H1 [H2 H3]]. split; [|split; [exact H2|]].
  - intros w H. destruct (H1 w H) as [E [F G]]. rewrite E. repeat split; [now left|now apply fits_iff|exact G].
  - intros b' i [<-|[]] F. now apply H3.
Qed.
Lemma goods_app : forall s bs cs ws vs, goods s bs ws -> goods s cs vs -> (forall b, In b bs -> ~ In b cs) -> goods s (bs ++ cs) (ws ++ vs).
Proof.
  intros s bs cs ws vs [H1 [H2 H3]] [K1 [K2 K3]] D. split; [|split].
  - intros w H. apply in_app_iff in H. rewrite in_app_iff. destruct H as [H|H]; [destruct (H1 w H)|destruct (K1 w H)]; tauto.
  - rewrite map_app. apply NoDup_app'; try assumption. intros k P Q. apply in_map_iff in P, Q. destruct P as [w [<- P]]. destruct Q as [v [E Q]].
    apply (D (fst (key w))); [apply H1; exact P|]. rewrite <- E. apply K1. exact Q.
  - intros b i H F. rewrite map_app, in_app_iff. apply in_app_iff in H. destruct H as [H|H]; [left; now apply H3|right; now apply K3].
Qed.
Ltac gapp := repeat first [eassumption | apply goods_one; eassumption | apply goods_app].
Ltac bdis := let b := fresh in intros b; cbn; intuition (subst; discriminate).

Lemma goods_read : forall s bs ws file off Y, goods s bs ws -> (forall k, k < length ws -> getitem file (Z.of_nat k + off) = nth_error (image Y ws) k) ->
  exists X n, run s file off ws (fun _ _ => 0%R, 0) = Some (X, n) /\ forall b i, In b bs -> Forall2 lt i (shape s b) -> X b i = Y b i.
Proof.
  intros s bs ws file off Y [H1 [H2 H3]] G. destruct (run_image s file off ws (fun _ _ => 0%R) Y H2) as [X [n [R1 R2]]].
  - apply Forall_forall. intros w H. apply H1, H.
  - apply Forall_forall. intros w H. apply H1, H.
  - exact G.
  - exists X, n. split; [exact R1|]. intros b i P F. apply R2. now apply H3.
Qed.
