(** Sums over dense arrays built from excitation lists. *)
From Coq Require Import List Arith Bool Reals Lia Lra.
From Verif Require Import RSum Base PspaceModel PspaceSpec PspaceProofs ScatterModel ScatterSpec ScatterProofs EnergyModel.
Import ListNotations.

Fixpoint lsum {A} (l : list A) (f : A -> R) : R := match l with [] => 0%R | x :: l => (f x + lsum l f)%R end.
Lemma lsum_ext {A} (l : list A) f g : (forall x, In x l -> f x = g x) -> lsum l f = lsum l g.
Proof. induction l; cbn; intros H; [reflexivity|]. rewrite H by now left. f_equal. apply IHl. intros; apply H; now right. Qed.
Lemma lsum_app {A} (l1 l2 : list A) f : lsum (l1 ++ l2) f = (lsum l1 f + lsum l2 f)%R.
Proof. induction l1; cbn; [lra|]. rewrite IHl1. lra. Qed.
(** all index lists of an array *)
Fixpoint all_idx (shape : list nat) : list (list nat) :=
  match shape with [] => [[]] | n :: sh => flat_map (fun x => map (cons x) (all_idx sh)) (seq 0 n) end.
Lemma in_all_idx : forall shape l, In l (all_idx shape) <-> in_bounds shape l = true.
Proof.
  induction shape as [|n sh IH]; intros l; cbn.
  - destruct l; split; auto; [intros [H|[]]; discriminate|discriminate].
  - rewrite in_flat_map. split.
    + intros (x & Hx & Hl). apply in_map_iff in Hl as (r & <- & Hr). apply in_seq in Hx. apply IH in Hr. rewrite Hr, andb_true_r. apply Nat.ltb_lt. lia.
    + destruct l as [|x r]; [discriminate|]. intros H. apply andb_true_iff in H as [H1 H2]. apply Nat.ltb_lt in H1. exists x. split; [apply in_seq; lia|]. apply in_map. now apply IH.
Qed.
Lemma lsum_map {A B} (g : A -> B) l f : lsum (map g l) f = lsum l (fun x => f (g x)).
Proof. induction l; cbn; congruence. Qed.
Lemma lsum_flat {A B} (g : A -> list B) l f : lsum (flat_map g l) f = lsum l (fun x => lsum (g x) f).
Proof. induction l; cbn; [reflexivity|]. now rewrite lsum_app, IHl. Qed.
Lemma lsum_seq n f : lsum (seq 0 n) f = sumn n f.
Proof. induction n; [reflexivity|]. rewrite seq_S, lsum_app, IHn. cbn. lra. Qed.
Lemma lsum_all n sh f : lsum (all_idx (n :: sh)) f = sumn n (fun x => lsum (all_idx sh) (fun l => f (x :: l))).
Proof. cbn [all_idx]. rewrite lsum_flat, lsum_seq. apply sumn_ext. intros x _. now rewrite lsum_map. Qed.
Lemma all_idx_NoDup shape : NoDup (all_idx shape).
Proof.
  induction shape as [|n sh IH]; cbn; [repeat constructor; intros []|].
  assert (G : forall m s, NoDup (flat_map (fun x => map (cons x) (all_idx sh)) (seq s m))).
  { induction m; intros s; cbn; [constructor|]. assert (K : forall l1 l2 : list (list nat), NoDup l1 -> NoDup l2 -> (forall x, In x l1 -> ~ In x l2) -> NoDup (l1 ++ l2)).
    { induction l1; cbn; intros l2 N1 N2 D; [exact N2|]. inversion N1; subst. constructor; [rewrite in_app_iff; intros [?|?]; [contradiction|]; eapply D; eauto|]. apply IHl1; [assumption|assumption|]. intros x Hx. apply D. now right. }
    apply K; [|apply IHm|].
    - clear - IH. induction IH; cbn; constructor; auto. rewrite in_map_iff. intros (y & E & Hy). injection E as <-. contradiction.
    - intros x Hx Hy. apply in_map_iff in Hx as (r & <- & _). apply in_flat_map in Hy as (z & Hz & Hy). apply in_map_iff in Hy as (r' & E & _). injection E as -> _. apply in_seq in Hz. lia. }
  apply G.
Qed.

Lemma lsum_upd (L : list (list nat)) p c f : NoDup L -> In p L -> f p = 0%R ->
  lsum L (fun l => if list_eqb l p then c else f l) = (c + lsum L f)%R.
Proof.
  induction L as [|x L IH]; intros N I Z; [destruct I|]. inversion N; subst. cbn [lsum]. destruct I as [<-|I].
  - assert (E : list_eqb x x = true) by now apply list_eqb_spec. rewrite E, Z.
    assert (lsum L (fun l => if list_eqb l x then c else f l) = lsum L f); [|lra].
    apply lsum_ext. intros y Hy. destruct (list_eqb y x) eqn:F; [|reflexivity]. apply list_eqb_spec in F. subst. contradiction.
  - rewrite IH by assumption. destruct (list_eqb x p) eqn:F; [|lra]. apply list_eqb_spec in F. subst. contradiction.
Qed.
Lemma lsum_hits (L : list (list nat)) (P : list (list nat)) c : NoDup L -> NoDup P -> forall f, (forall p, In p P -> In p L /\ f p = 0%R) ->
  lsum L (fun l => if existsb (fun z => list_eqb l z) P then c else f l) = (INR (length P) * c + lsum L f)%R.
Proof.
  intros NL. induction P as [|p P IH]; intros NP f H; cbn [existsb length]; [rewrite Rmult_0_l; now rewrite Rplus_0_l|].
  inversion NP; subst. rewrite S_INR.
  transitivity (lsum L (fun l => if existsb (fun z => list_eqb l z) P then c else (if list_eqb l p then c else f l))).
  - apply lsum_ext. intros l _. destruct (list_eqb l p), (existsb _ P); reflexivity.
  - rewrite IH; [rewrite lsum_upd; [lra|exact NL|apply H; now left|apply H; now left]|exact H3|].
    intros q Hq. split; [apply H; now right|]. destruct (list_eqb q p) eqn:F; [apply list_eqb_spec in F; subst; contradiction|apply H; now right].
Qed.

Section Dense.
Variables (shape : list nat) (W : writes) (m : nat) (G : list nat -> Prop) (lay canon : list nat -> list nat) (inv : list nat -> bool).
Hypothesis H_inv : forall r l s, G r -> In (l, s) (W r) -> s = inv l.
Hypothesis H_canon : forall r l s, G r -> In (l, s) (W r) -> canon l = lay r.
Hypothesis H_bounds : forall r l s, G r -> In (l, s) (W r) -> in_bounds shape l = true.
Hypothesis H_inj : forall r r', G r -> G r' -> lay r = lay r' -> r = r'.
Hypothesis H_nd : forall r, G r -> NoDup (map fst (W r)) /\ length (W r) = m.

Lemma dense_dot : forall rs xs ys (TX TY X Y : tensor), length xs = length rs -> length ys = length rs -> (forall r, In r rs -> G r) -> NoDup rs ->
  (forall r l, In r rs -> hits W l r = true -> (TX l * TY l = 0)%R) ->
  scatter shape W (map (map S) rs) xs (Some TX) = Some X -> scatter shape W (map (map S) rs) ys (Some TY) = Some Y ->
  exists q, np_dot ys xs = Some q /\ lsum (all_idx shape) (fun l => X l * Y l)%R = (INR m * q + lsum (all_idx shape) (fun l => TX l * TY l))%R.
Proof.
  induction rs as [|r rs IH]; intros [|x xs] [|y ys] TX TY X Y Lx Ly HG N Z EX EY; cbn in Lx, Ly; try lia.
  - cbn in EX, EY. injection EX as <-. injection EY as <-. exists 0%R. split; [reflexivity|]. lra.
  - cbn [map scatter] in EX, EY. unfold scatter_row in EX, EY. rewrite map_S_sub in EX, EY.
    assert (Gr : G r) by (apply HG; now left). inversion N as [|? ? NI NR]; subst.
    assert (HW : forall l s, In (l, s) (W r) -> s = inv l /\ in_bounds shape l = true) by (intros l s Hl; split; [now apply (H_inv r)|now apply (H_bounds r l s)]).
    destruct (row_spec shape inv (W r) x TX HW) as (X1 & E1 & H1).
    destruct (row_spec shape inv (W r) y TY HW) as (Y1 & F1 & K1).
    rewrite E1 in EX. rewrite F1 in EY.
    assert (Q : forall l, (X1 l * Y1 l = if existsb (fun z => list_eqb l z) (map fst (W r)) then x * y else TX l * TY l)%R).
    { intros l. rewrite H1, K1. assert (E : existsb (fun z => list_eqb l z) (map fst (W r)) = existsb (fun z : list nat * bool => list_eqb l (fst z)) (W r)).
      { generalize (W r). induction l0 as [|z L0 IHL]; cbn; congruence. }
      rewrite E. destruct (existsb (fun z : list nat * bool => list_eqb l (fst z)) (W r)); [unfold sgn; destruct (inv l); ring|reflexivity]. }
    destruct (IH xs ys X1 Y1 X Y ltac:(lia) ltac:(lia)) as (q & Eq & HS); [intros; apply HG; now right|assumption| |exact EX|exact EY|].
    { intros r' l Hr' Hl. rewrite Q. destruct existsb eqn:F.
      - exfalso. apply existsb_exists in F as (z & Hz & F). apply list_eqb_spec in F. subst z. apply in_map_iff in Hz as ((l0, s0) & E0 & Hz). cbn in E0. subst l0.
        apply hits_spec in Hl as (s' & Hl). assert (r = r'); [|subst; contradiction].
        apply H_inj; auto; [apply HG; now right|]. rewrite <- (H_canon r l s0 Gr Hz). apply (H_canon r' l s'); auto. apply HG; now right.
      - apply (Z r'); [now right|exact Hl]. }
    cbn [np_dot]. rewrite Eq. eexists. split; [reflexivity|]. rewrite HS.
    rewrite (lsum_ext (all_idx shape) (fun l => X1 l * Y1 l)%R _ (fun l _ => Q l)).
    destruct (H_nd r Gr) as (ND & Lm). rewrite lsum_hits; [rewrite map_length, Lm; lra|apply all_idx_NoDup|exact ND|].
    intros p Hp. apply in_map_iff in Hp as ((l0, s0) & E0 & Hz). cbn in E0. subst l0. split; [apply in_all_idx; now apply (H_bounds r p s0)|].
    apply (Z r); [now left|]. apply hits_spec. now exists s0.
Qed.
Lemma dense_dot0 : forall rs xs ys (X Y : tensor), length xs = length rs -> length ys = length rs -> (forall r, In r rs -> G r) -> NoDup rs ->
  scatter shape W (map (map S) rs) xs (Some zero_tensor) = Some X -> scatter shape W (map (map S) rs) ys (Some zero_tensor) = Some Y ->
  exists q, np_dot ys xs = Some q /\ lsum (all_idx shape) (fun l => X l * Y l)%R = (INR m * q)%R.
Proof.
  intros rs xs ys X Y Lx Ly HG N EX EY. destruct (dense_dot rs xs ys zero_tensor zero_tensor X Y Lx Ly HG N) as (q & E & H); auto.
  - intros. unfold zero_tensor. lra.
  - exists q. split; [exact E|]. rewrite H, (lsum_ext _ _ (fun _ => 0)%R); [|intros; unfold zero_tensor; lra].
    assert (K : lsum (all_idx shape) (fun _ => 0%R) = 0%R) by (generalize (all_idx shape); induction l; cbn; lra). rewrite K. lra.
Qed.
End Dense.

Ltac solve_nd := intros ? HG; open_row HG; order_rules; split; [|reflexivity];
  cbv beta iota delta [w_aaa w_aab w_abb w_bbb w3p2h_aaa w3p2h_aab w3p2h_abb w3h2p_aaa w3h2p_aab]; cbn [map fst];
  repeat constructor; cbn [In]; intros HI; repeat (destruct HI as [HI|HI]; [injection HI; intros; lia|]); destruct HI.
Ltac solve_dense f g h k := intros s; apply (dense_dot0 f g) with (canon := h) (inv := k); [ | | | | ].
Definition same_dense (shape : list nat) (W : writes) (m : nat) (s : orbsys) (ps hs : list spin) : Prop :=
  forall rs xs ys (X Y : tensor), length xs = length rs -> length ys = length rs -> (forall r, In r rs -> Grow s ps hs r) -> NoDup rs ->
  scatter shape W (map (map S) rs) xs (Some zero_tensor) = Some X -> scatter shape W (map (map S) rs) ys (Some zero_tensor) = Some Y ->
  exists q, np_dot ys xs = Some q /\ lsum (all_idx shape) (fun l => X l * Y l)%R = (INR m * q)%R.
Lemma dd_aaa s : same_dense (shape_aaa s) w_aaa 36 s aaa aaa.
Proof.
  refine (dense_dot0 (shape_aaa s) w_aaa 36 (Grow s aaa aaa) (fun r => r) canon_aaa inv_aaa _ _ _ _ _); [solve_inv inv_aaa|solve_canon canon_aaa|solve_bounds shape_aaa|intros r r' _ _ E; exact E|solve_nd].
Qed.
Lemma dd_aab s : same_dense (shape_aab s) w_aab 4 s aab aab.
Proof.
  refine (dense_dot0 (shape_aab s) w_aab 4 (Grow s aab aab) (fun r => r) canon_aab inv_aab _ _ _ _ _); [solve_inv inv_aab|solve_canon canon_aab|solve_bounds shape_aab|intros r r' _ _ E; exact E|solve_nd].
Qed.
Lemma dd_abb s : same_dense (shape_abb s) w_abb 4 s abb abb.
Proof.
  refine (dense_dot0 (shape_abb s) w_abb 4 (Grow s abb abb) (fun r => r) canon_abb inv_abb _ _ _ _ _); [solve_inv inv_abb|solve_canon canon_abb|solve_bounds shape_abb|intros r r' _ _ E; exact E|solve_nd].
Qed.
Lemma dd_bbb s : same_dense (shape_bbb s) w_bbb 36 s bbb bbb.
Proof.
  refine (dense_dot0 (shape_bbb s) w_bbb 36 (Grow s bbb bbb) (fun r => r) canon_aaa inv_aaa _ _ _ _ _); [solve_inv inv_aaa|solve_canon canon_aaa|solve_bounds shape_bbb|intros r r' _ _ E; exact E|solve_nd].
Qed.
Lemma dd_3p2h_aaa s : same_dense (shape3p2h_aaa s) w3p2h_aaa 12 s aaa aa.
Proof.
  refine (dense_dot0 (shape3p2h_aaa s) w3p2h_aaa 12 (Grow s aaa aa) (fun r => r) c3p2h_aaa i3p2h_aaa _ _ _ _ _); [solve_inv i3p2h_aaa|solve_canon c3p2h_aaa|solve_bounds shape3p2h_aaa|intros r r' _ _ E; exact E|solve_nd].
Qed.
Lemma dd_3p2h_aab s : same_dense (shape3p2h_aab s) w3p2h_aab 2 s aab ab.
Proof.
  refine (dense_dot0 (shape3p2h_aab s) w3p2h_aab 2 (Grow s aab ab) (fun r => r) c3p2h_aab i3p2h_aab _ _ _ _ _); [solve_inv i3p2h_aab|solve_canon c3p2h_aab|solve_bounds shape3p2h_aab|intros r r' _ _ E; exact E|solve_nd].
Qed.
Lemma dd_3p2h_abb s : same_dense (shape3p2h_abb s) w3p2h_abb 4 s abb bb.
Proof.
  refine (dense_dot0 (shape3p2h_abb s) w3p2h_abb 4 (Grow s abb bb) (fun r => r) c3p2h_abb i3p2h_abb _ _ _ _ _); [solve_inv i3p2h_abb|solve_canon c3p2h_abb|solve_bounds shape3p2h_abb|intros r r' _ _ E; exact E|solve_nd].
Qed.
Lemma dd_3h2p_aaa s : same_dense (shape3h2p_aaa s) w3h2p_aaa 12 s aa aaa.
Proof.
  refine (dense_dot0 (shape3h2p_aaa s) w3h2p_aaa 12 (Grow s aa aaa) lay3h2p c3h2p_aaa i3h2p_aaa _ _ _ _ _); [solve_inv i3h2p_aaa|solve_canon c3h2p_aaa|solve_bounds shape3h2p_aaa|intros r r' HG HG' E; open_row HG; open_row HG'; cbn [lay3h2p] in E; congruence|solve_nd].
Qed.
Lemma dd_3h2p_aab s : same_dense (shape3h2p_aab s) w3h2p_aab 2 s ab aab.
Proof.
  refine (dense_dot0 (shape3h2p_aab s) w3h2p_aab 2 (Grow s ab aab) lay3h2p c3h2p_aab i3h2p_aab _ _ _ _ _); [solve_inv i3h2p_aab|solve_canon c3h2p_aab|solve_bounds shape3h2p_aab|intros r r' HG HG' E; open_row HG; open_row HG'; cbn [lay3h2p] in E; congruence|solve_nd].
Qed.
