(** C36: tensor reorder.  C37: array permutation.  C58: reordering of P-space amplitudes. *)
From Coq Require Import Ascii String List Arith Bool Reals Lia Lra Permutation.
From Verif Require Import Base ReorderModel ReorderSpec ReorderProofs.
Import ListNotations.
Local Open Scope nat_scope.
Local Open Scope list_scope.

(** * C37 *)
Theorem C37_permute : forall A (d : A) perm a b0, arrangement (length perm) perm -> length b0 = length perm ->
  forall i, 1 <= i <= length perm -> nth (nth (i - 1) perm 0 - 1) (permute_array d perm a b0) d = nth (i - 1) a d.
Proof. intros A d perm a b0 AR L i Hi. exact (proj2 (permute_spec A d perm a b0 AR L) i Hi). Qed.
Theorem C37_inverse_after_permute : forall A (d : A) perm a b0 c0, arrangement (length perm) perm ->
  length a = length perm -> length b0 = length perm -> length c0 = length perm ->
  inverse_permute_array d perm (permute_array d perm a b0) c0 = a.
Proof.
  intros A d perm a b0 c0 AR La Lb Lc. destruct (permute_spec A d perm a b0 AR Lb) as (L1 & P1).
  destruct (inverse_spec A d perm (permute_array d perm a b0) c0 Lc) as (L2 & P2).
  apply (list_eq_nth d); [lia|]. intros i Hi. specialize (P2 (S i)). rewrite Nat.sub_1_r in P2. cbn [pred] in P2. rewrite P2 by lia.
  rewrite P1 by lia. f_equal. lia.
Qed.
Theorem C37_permute_after_inverse : forall A (d : A) perm a b0 c0, arrangement (length perm) perm ->
  length a = length perm -> length b0 = length perm -> length c0 = length perm ->
  permute_array d perm (inverse_permute_array d perm a b0) c0 = a.
Proof.
  intros A d perm a b0 c0 AR La Lb Lc. destruct (inverse_spec A d perm a b0 Lb) as (L1 & P1).
  destruct (permute_spec A d perm (inverse_permute_array d perm a b0) c0 AR Lc) as (L2 & P2).
  apply (list_eq_nth d); [lia|]. intros i Hi. destruct (at1_onto (length perm) perm (S i) AR) as (k & Hk & E); [lia|].
  specialize (P2 k Hk). rewrite P1, E in P2 by exact Hk. rewrite Nat.sub_1_r in P2. exact P2.
Qed.
Example C37_instance : arrangement 4 [3; 1; 4; 2] /\ permute_array 0 [3; 1; 4; 2] [10; 20; 30; 40] [0; 0; 0; 0] = [20; 40; 10; 30].
Proof. split; [|reflexivity]. split; [reflexivity|]. split; [repeat constructor; cbn; lia|]. cbn. intros; lia. Qed.

(** * C36 *)
(** The permutation string: one decimal digit per axis. *)
Definition digit (d : nat) : ascii := nth d ["0"; "1"; "2"; "3"; "4"; "5"; "6"; "7"; "8"; "9"]%char " "%char.
Theorem C36_permutation_string : forall perm, (forall p, In p perm -> p <= 9) -> gen_perm_array (string_of_list_ascii (map digit perm)) = perm.
Proof.
  intros perm H. unfold gen_perm_array. rewrite list_ascii_of_string_of_list_ascii, map_map. rewrite <- (map_id perm) at 2. apply map_ext_in.
  intros p Hp. specialize (H p Hp). do 10 (destruct p as [|p]; [reflexivity|]). lia.
Qed.
Definition schedule (n : nat) (order : list nat) : Prop := Permutation (seq 0 n) order.
Lemma schedule_in : forall n order j, schedule n order -> (In j order <-> j < n).
Proof.
  intros n order j P. split; intros H.
  - apply (Permutation_in _ (Permutation_sym P)) in H. apply in_seq in H. lia.
  - apply (Permutation_in _ P). apply in_seq. lia.
Qed.
Lemma identity_permuted : forall shape x : list nat, length x = length shape -> permuted (seq 1 (length shape)) x = x.
Proof.
  intros shape x L. apply at1_ext; [unfold permuted; rewrite map_length, seq_length; lia|]. intros k Hk. rewrite permuted_at1 by (rewrite seq_length; lia).
  f_equal. unfold at1. rewrite seq_nth by lia. lia.
Qed.
Lemma arr_ne : forall n (perm : list nat), 1 <= n -> arrangement n perm -> perm <> []. Proof. intros n perm H (L & _) ->. cbn in L. lia. Qed.
Lemma zeros_at : forall n k, at1 (repeat 0 n) k = 0.
Proof. intros n k. unfold at1. destruct (nth_in_or_default (k - 1) (repeat 0 n) 0) as [I|E]; [now apply repeat_spec in I|exact E]. Qed.

Lemma total_permuted : forall perm shape, arrangement (length shape) perm -> total (permuted perm shape) = total shape.
Proof.
  intros perm shape A. apply total_perm. apply perm_trans with (map (at1 shape) (seq 1 (length shape))); [|rewrite <- list_at1; apply Permutation_refl].
  unfold permuted. apply (Permutation_map (at1 shape)). apply Permutation_sym. now apply arrangement_perm.
Qed.
(** The result of reorder_stripe, for every rank, shape, axis permutation and thread schedule: axis i of B is axis perm(i) of A. *)
Theorem C36_reorder_stripe : forall V order (shape : list nat) str (a b : nat -> V),
  let perm := gen_perm_array str in
  1 <= length shape -> arrangement (length shape) perm -> schedule (size_outer shape perm) order ->
  (forall x, in_bounds shape x -> reorder_stripe order shape str a b (offset (permuted perm shape) (permuted perm x)) = a (offset shape x)) /\
  (forall q, total shape <= q -> reorder_stripe order shape str a b q = b q).
Proof.
  intros V order shape str a b perm L1 A S. unfold reorder_stripe. fold perm. destruct (list_eq_dec Nat.eq_dec (seq 1 (length shape)) perm) as [E|NE].
  - split.
    + intros x B. rewrite <- E, !identity_permuted by (auto using in_bounds_length). rewrite product_total.
      destruct (Nat.ltb_spec (offset shape x) (total shape)) as [_|C]; [reflexivity|]. pose proof (offset_bound shape x B). lia.
    + intros q Hq. rewrite product_total. destruct (Nat.ltb_spec q (total shape)); [lia|reflexivity].
  - pose proof (arr_ne _ _ L1 A) as PN. rewrite size_outer_spec in S by assumption. set (s := at1 shape (at1 perm 1)). set (zs := repeat 0 (length shape)).
    set (st := strides shape).
    pose proof (stripe_writes V order s (fun j i => j * s + i) (fun j i _ => a (outer_offset shape zs st perm j + i * at1 st (at1 perm 1))) b) as W. cbn beta in W. rewrite W. clear W.
    set (ws := flat_map _ order).
    assert (Nw : NoDup (map fst ws)) by (unfold ws; rewrite map_fst_stripes; apply positions_nodup; eapply Permutation_NoDup; [exact S|apply seq_NoDup]).
    split.
    + intros x B. assert (BP : in_bounds (permuted perm shape) (permuted perm x)) by (apply permuted_bounds; [exact B|apply A]).
      assert (F2 : Forall2 (fun p v => at1 x p = v + at1 zs p) perm (permuted perm x)).
      { apply forall2_permuted; [unfold permuted; apply map_length|]. intros i Hi. rewrite permuted_at1 by exact Hi. unfold zs. rewrite zeros_at. lia. }
      destruct (address_spec shape zs shape perm (permuted perm x) x PN A (in_bounds_length _ _ B) BP F2) as (i & j & Hi & Hj & E1 & E2).
      rewrite E1, E2. fold s st. rewrite (writes_in V ws b (j * s + i) (fun _ => a (outer_offset shape zs st perm j + i * at1 st (at1 perm 1))) Nw).
      * f_equal. unfold address. fold st. assert (Z : forall k, at1 zs k = 0) by (intros; apply zeros_at). rewrite Z. lia.
      * unfold ws. apply in_flat_map. exists j. split; [now apply (schedule_in _ _ _ S)|]. apply in_map_iff. exists i. split; [reflexivity|]. apply in_seq. fold s in Hi. lia.
    + intros q Hq. apply writes_other. unfold ws. rewrite map_fst_stripes. intros C. apply in_flat_map in C. destruct C as (j & Hj & C). apply in_map_iff in C.
      destruct C as (i & E & Hi). apply in_seq in Hi. apply (schedule_in _ _ _ S) in Hj.
      assert (T : total (permuted perm shape) = total shape).
      { now apply total_permuted. }
      destruct (address_onto shape perm i j PN) as (y & By & Ey); [fold s; lia|exact Hj|]. pose proof (offset_bound _ _ By). fold s in Ey. lia.
Qed.

Definition plus (x y : list nat) : list nat := map (fun p => fst p + snd p) (combine x y).
Lemma plus_at : forall x y k, length x = length y -> at1 (plus x y) k = at1 x k + at1 y k.
Proof.
  intros x y k L. unfold at1, plus. revert y L. generalize (k - 1). intros n. revert x.
  induction n as [|n IH]; intros [|a x] [|b y] L; try discriminate L; try reflexivity. cbn [combine map nth]. apply IH. now injection L.
Qed.
Lemma shift_setup : forall perm b_shape b_shifts a_shape y x : list nat, 1 <= length a_shape -> arrangement (length a_shape) perm -> length b_shape = length a_shape ->
  length b_shifts = length a_shape -> length x = length a_shape -> in_bounds b_shape y -> permuted perm x = plus y b_shifts ->
  permuted perm (unperm perm b_shape) = b_shape /\ Forall2 (fun p v => at1 x p = v + at1 (unperm perm b_shifts) p) perm y.
Proof.
  intros perm b_shape b_shifts a_shape y x L1 A Lb Ls Lx B E. assert (Lp : length perm = length a_shape) by apply A.
  assert (A' : arrangement (length perm) perm) by (rewrite Lp; exact A). pose proof (in_bounds_length _ _ B) as Ly. split.
  - apply permuted_unperm; [exact A'|lia].
  - apply forall2_permuted; [lia|]. intros i Hi. rewrite unperm_at by assumption. rewrite <- permuted_at1, E, plus_at by lia. reflexivity.
Qed.
Lemma size_outer_shift_spec : forall perm b_shape : list nat, 1 <= length perm -> arrangement (length perm) perm -> length b_shape = length perm ->
  (forall d, In d b_shape -> 1 <= d) -> size_outer_shift b_shape perm = total (permuted (tl perm) (unperm perm b_shape)).
Proof.
  intros perm b_shape L1 A Lb Pos. unfold size_outer_shift. fold (unperm perm b_shape). rewrite product_total.
  assert (E : total (unperm perm b_shape) = total (permuted perm (unperm perm b_shape))).
  { symmetry. apply total_permuted. rewrite unperm_length by exact A. exact A. }
  rewrite E. pose proof (permuted_unperm perm b_shape A Lb) as PU. destruct perm as [|p ps]; [cbn in L1; lia|]. cbn [tl]. change (at1 (p :: ps) 1) with p.
  cbn [permuted map] in *. fold (permuted ps (unperm (p :: ps) b_shape)) in *. change (nth (p - 1) (unperm (p :: ps) b_shape) 0) with (at1 (unperm (p :: ps) b_shape) p) in *.
  assert (1 <= at1 (unperm (p :: ps) b_shape) p) by (apply Pos; rewrite <- PU at 2; now left).
  unfold total at 1. cbn [fold_right]. rewrite Nat.mul_comm. apply Nat.div_mul. lia.
Qed.
Lemma unfold_unperm : forall perm l, permute_array 0 perm l (repeat 0 (length perm)) = unperm perm l. Proof. reflexivity. Qed.

(** Common part of reorder_shift and sum_shift. *)
Lemma shift_general : forall V order (a_shape b_shape b_shifts perm : list nat) (h : V -> nat -> V) (b : nat -> V),
  let dims := unperm perm b_shape in let sh := unperm perm b_shifts in let st := strides a_shape in
  let s := at1 dims (at1 perm 1) in
  let res := fold_left (fun b j => fold_left (fun b i => upd b (j * s + i)
               (h (b (j * s + i)) (outer_offset dims sh st perm j + at1 sh (at1 perm 1) * at1 st (at1 perm 1) + i * at1 st (at1 perm 1)))) (seq 0 s) b) order b in
  1 <= length a_shape -> arrangement (length a_shape) perm -> length b_shape = length a_shape -> length b_shifts = length a_shape ->
  (forall d, In d b_shape -> 1 <= d) -> schedule (size_outer_shift b_shape perm) order ->
  (forall y x, in_bounds b_shape y -> length x = length a_shape -> permuted perm x = plus y b_shifts -> res (offset b_shape y) = h (b (offset b_shape y)) (offset a_shape x)) /\
  (forall q, total b_shape <= q -> res q = b q).
Proof.
  intros V order a_shape b_shape b_shifts perm h b dims sh st s res L1 A Lb Ls Pos S. assert (Lp : length perm = length a_shape) by apply A.
  assert (A' : arrangement (length perm) perm) by (rewrite Lp; exact A). pose proof (arr_ne _ _ L1 A) as PN.
  rewrite size_outer_shift_spec in S by (auto; lia). fold dims in S. assert (PU : permuted perm dims = b_shape) by (apply permuted_unperm; [exact A'|lia]).
  pose proof (stripe_writes V order s (fun j i => j * s + i) (fun j i v => h v (outer_offset dims sh st perm j + at1 sh (at1 perm 1) * at1 st (at1 perm 1) + i * at1 st (at1 perm 1))) b) as W.
  cbn beta in W. unfold res. rewrite W. clear W. set (ws := flat_map _ order).
  assert (Nw : NoDup (map fst ws)) by (unfold ws; rewrite map_fst_stripes; apply positions_nodup; eapply Permutation_NoDup; [exact S|apply seq_NoDup]).
  split.
  - intros y x B Lx E. destruct (shift_setup perm b_shape b_shifts a_shape y x L1 A Lb Ls Lx B E) as (_ & F2). fold sh in F2.
    rewrite <- PU in B. destruct (address_spec dims sh a_shape perm y x PN A Lx B F2) as (i & j & Hi & Hj & E1 & E2).
    rewrite PU in E1. rewrite E1, E2. fold s. fold s in Hi.
    rewrite (writes_in V ws b (j * s + i) (fun v => h v (outer_offset dims sh st perm j + at1 sh (at1 perm 1) * at1 st (at1 perm 1) + i * at1 st (at1 perm 1))) Nw).
    + reflexivity.
    + unfold ws. apply in_flat_map. exists j. split; [now apply (schedule_in _ _ _ S)|]. apply in_map_iff. exists i. split; [reflexivity|]. apply in_seq. lia.
  - intros q Hq. apply writes_other. unfold ws. rewrite map_fst_stripes. intros C. apply in_flat_map in C. destruct C as (j & Hj & C). apply in_map_iff in C.
    destruct C as (i & E & Hi). apply in_seq in Hi. apply (schedule_in _ _ _ S) in Hj.
    destruct (address_onto dims perm i j PN) as (y & By & Ey); [fold s; lia|exact Hj|]. pose proof (offset_bound _ _ By). rewrite PU in *. fold s in Ey. lia.
Qed.

(** reorder_shift copies a window: element y of B is the element of A whose index on axis perm(i) is y(i) + shift(i). *)
Theorem C36_reorder_shift : forall V order (a_shape b_shape b_shifts : list nat) str (a b : nat -> V),
  let perm := gen_perm_array str in
  1 <= length a_shape -> arrangement (length a_shape) perm -> length b_shape = length a_shape -> length b_shifts = length a_shape ->
  (forall d, In d b_shape -> 1 <= d) -> schedule (size_outer_shift b_shape perm) order ->
  (forall y x, in_bounds b_shape y -> length x = length a_shape -> permuted perm x = plus y b_shifts ->
     reorder_shift order a_shape b_shape b_shifts str a b (offset b_shape y) = a (offset a_shape x)) /\
  (forall q, total b_shape <= q -> reorder_shift order a_shape b_shape b_shifts str a b q = b q).
Proof. intros V order a_shape b_shape b_shifts str a b perm. exact (shift_general V order a_shape b_shape b_shifts perm (fun _ o => a o) b). Qed.

(** sum_stripe adds a multiple of the transposed tensor, sum_shift a multiple of a transposed window. *)
Theorem C36_sum_stripe : forall order (shape : list nat) str beta (a b : nat -> R),
  let perm := gen_perm_array str in
  1 <= length shape -> arrangement (length shape) perm -> schedule (size_outer shape perm) order ->
  (forall x, in_bounds shape x ->
     sum_stripe order shape str beta a b (offset shape x) = (a (offset shape x) + beta * b (offset (permuted perm shape) (permuted perm x)))%R) /\
  (forall q, total shape <= q -> sum_stripe order shape str beta a b q = a q).
Proof.
  intros order shape str beta a b perm L1 A S. unfold sum_stripe. fold perm. destruct (list_eq_dec Nat.eq_dec (seq 1 (length shape)) perm) as [E|NE].
  - split.
    + intros x B. rewrite <- E, !identity_permuted by (auto using in_bounds_length). rewrite product_total.
      destruct (Nat.ltb_spec (offset shape x) (total shape)) as [_|C]; [reflexivity|]. pose proof (offset_bound shape x B). lia.
    + intros q Hq. rewrite product_total. destruct (Nat.ltb_spec q (total shape)); [lia|reflexivity].
  - pose proof (arr_ne _ _ L1 A) as PN. assert (Lp : length perm = length shape) by apply A. assert (A' : arrangement (length perm) perm) by (rewrite Lp; exact A).
    rewrite size_outer_spec in S by assumption. set (s := at1 shape (at1 perm 1)). set (zs := repeat 0 (length shape)). set (st := strides shape).
    set (f := fun j i => outer_offset shape zs st perm j + i * at1 st (at1 perm 1)).
    pose proof (stripe_writes R order s f (fun j i v => (v + beta * b (j * s + i)%nat)%R) a) as W. cbn beta in W. unfold f at 1 2 in W. rewrite W. clear W.
    set (ws := flat_map _ order).
    assert (AD : forall x, in_bounds shape x -> exists i j, i < s /\ j < total (permuted (tl perm) shape) /\ offset (permuted perm shape) (permuted perm x) = j * s + i /\ offset shape x = f j i).
    { intros z Bz. assert (BP : in_bounds (permuted perm shape) (permuted perm z)) by (apply permuted_bounds; [exact Bz|apply A]).
      assert (F2 : Forall2 (fun p v => at1 z p = v + at1 zs p) perm (permuted perm z)).
      { apply forall2_permuted; [unfold permuted; apply map_length|]. intros i Hi. rewrite permuted_at1 by exact Hi. unfold zs. rewrite zeros_at. lia. }
      destruct (address_spec shape zs shape perm (permuted perm z) z PN A (in_bounds_length _ _ Bz) BP F2) as (i & j & Hi & Hj & E1 & E2).
      exists i, j. repeat split; auto. rewrite E2. unfold f, address. fold st. assert (Z : forall k, at1 zs k = 0) by (intros; apply zeros_at). rewrite Z. lia. }
    assert (ON : forall j i, i < s -> j < total (permuted (tl perm) shape) -> exists z, in_bounds shape z /\ f j i = offset shape z /\ offset (permuted perm shape) (permuted perm z) = j * s + i).
      { intros j i Hi Hj. destruct (address_onto shape perm i j PN Hi Hj) as (y & By & Ey). exists (unperm perm y).
        assert (Bz : in_bounds shape (unperm perm y)) by (apply unperm_bounds; auto). split; [exact Bz|].
        assert (Ly : length y = length perm) by (rewrite (in_bounds_length _ _ By); unfold permuted; apply map_length).
        destruct (AD _ Bz) as (i2 & j2 & Hi2 & Hj2 & E1 & E2). rewrite permuted_unperm in E1 |- * by assumption. fold s in Ey. rewrite Ey in E1.
        assert (j = j2) by nia. subst j2. assert (i = i2) by lia. subst i2. split; [now symmetry|exact Ey]. }
    assert (INJ : forall j i j' i', i < s -> i' < s -> j < total (permuted (tl perm) shape) -> j' < total (permuted (tl perm) shape) -> f j i = f j' i' -> j * s + i = j' * s + i').
    { intros j i j' i' Hi Hi' Hj Hj' E. destruct (ON j i Hi Hj) as (z & Bz & E1 & E2). destruct (ON j' i' Hi' Hj') as (z' & Bz' & E1' & E2').
      rewrite E1, E1' in E. apply offset_inj in E; [|assumption|assumption]. subst z'. congruence. }
    assert (Nw : NoDup (map fst ws)).
    { unfold ws. rewrite map_fst_stripes. apply (NoDup_map_inv (fun q => q)). rewrite map_id.
      assert (G : forall l, NoDup l -> (forall j, In j l -> j < total (permuted (tl perm) shape)) -> NoDup (flat_map (fun j => map (fun i => f j i) (seq 0 s)) l)).
      { intros l N Hl. apply Permutation_NoDup with (l := map (fun q => f (q / s) (q mod s)) (flat_map (fun j => map (fun i => j * s + i) (seq 0 s)) l)).
        - rewrite flat_map_concat_map, concat_map, map_map, <- flat_map_concat_map. clear. induction l as [|j l IH]; [constructor|]. cbn [flat_map]. apply Permutation_app; [|exact IH].
          rewrite map_map. match goal with |- Permutation ?a ?b => assert (E : a = b); [|rewrite E; apply Permutation_refl] end. apply map_ext_in. intros i Hi. apply in_seq in Hi.
          f_equal; [rewrite Nat.div_add_l, Nat.div_small by lia; lia|]. rewrite Nat.add_comm, Nat.mod_add, Nat.mod_small by lia. reflexivity.
        - pose proof (positions_nodup s l N) as NP. assert (HB : forall q, In q (flat_map (fun j => map (fun i => j * s + i) (seq 0 s)) l) -> exists j i, q = j * s + i /\ i < s /\ j < total (permuted (tl perm) shape)).
          { intros q Hq. apply in_flat_map in Hq. destruct Hq as (j & Hj & Hq). apply in_map_iff in Hq. destruct Hq as (i & <- & Hi). apply in_seq in Hi. exists j, i. repeat split; auto. lia. }
          clear -NP HB INJ. induction NP as [|q l' Nq NP IH]; cbn [map]; constructor.
          + intros C. apply in_map_iff in C. destruct C as (q' & Eq & Hq'). destruct (HB q (or_introl eq_refl)) as (j & i & -> & Hi & Hj). destruct (HB q' (or_intror Hq')) as (j' & i' & -> & Hi' & Hj').
            rewrite !Nat.div_add_l, !(Nat.div_small _ s) in Eq by lia. rewrite !(Nat.add_comm (_ * s)), !Nat.mod_add, !Nat.mod_small, !Nat.add_0_r in Eq by lia.
            apply INJ in Eq; auto. rewrite Eq in Hq'. auto.
          + apply IH. intros q' Hq'. apply HB. now right. }
      apply G; [eapply Permutation_NoDup; [exact S|apply seq_NoDup]|]. intros j Hj. now apply (schedule_in _ _ _ S). }
    split.
    + intros x B. destruct (AD x B) as (i & j & Hi & Hj & E1 & E2). rewrite E1, E2. rewrite (writes_in R ws a (f j i) (fun v => (v + beta * b (j * s + i)%nat)%R) Nw); [reflexivity|].
      unfold ws. apply in_flat_map. exists j. split; [now apply (schedule_in _ _ _ S)|]. apply in_map_iff. exists i. split; [reflexivity|]. apply in_seq. lia.
    + intros q Hq. apply writes_other. unfold ws. rewrite map_fst_stripes. intros C. apply in_flat_map in C. destruct C as (j & Hj & C). apply in_map_iff in C.
      destruct C as (i & E & Hi). apply in_seq in Hi. apply (schedule_in _ _ _ S) in Hj. destruct (ON j i) as (z & Bz & Ez & _); [lia|exact Hj|].
      pose proof (offset_bound _ _ Bz). lia.
Qed.

Lemma sum_shift_perm_arr : forall n str, arrangement n (gen_perm_array str) -> arrangement n (sum_shift_perm str) /\
  forall w, length w = n -> permuted (sum_shift_perm str) (permuted (gen_perm_array str) w) = w.
Proof.
  intros n str A. unfold sum_shift_perm. set (p := gen_perm_array str) in *. assert (Lp : length p = n) by apply A. assert (A' : arrangement (length p) p) by (rewrite Lp; exact A).
  destruct (permute_spec nat 0 p (seq 1 (length p)) p A' eq_refl) as (L & P). set (q := permute_array 0 p (seq 1 (length p)) p) in *.
  assert (Q : forall i, 1 <= i <= length p -> at1 q (at1 p i) = i) by (intros i Hi; change (nth (at1 p i - 1) q 0 = i); rewrite (P i Hi); rewrite seq_nth by lia; lia).
  assert (AR : arrangement (length p) q).
  { split; [exact L|]. assert (R : forall k, 1 <= k <= length p -> 1 <= at1 q k <= length p) by (intros k Hk; destruct (at1_onto _ _ k A' Hk) as (i & Hi & <-); rewrite Q; lia). split.
    - apply (NoDup_nth q 0). intros i j Hi Hj E. rewrite L in Hi, Hj.
      destruct (at1_onto _ _ (S i) A') as (i' & Hi' & Ei); [lia|]. destruct (at1_onto _ _ (S j) A') as (j' & Hj' & Ej); [lia|].
      pose proof (Q i' Hi') as Qi. pose proof (Q j' Hj') as Qj. rewrite Ei in Qi. rewrite Ej in Qj. unfold at1 in Qi, Qj. rewrite Nat.sub_1_r in Qi, Qj. cbn [pred] in Qi, Qj.
      assert (i' = j') by congruence. subst j'. congruence.
    - intros v Hv. apply (In_nth q v 0) in Hv. destruct Hv as (k & Hk & <-). specialize (R (S k)). unfold at1 in R. rewrite Nat.sub_1_r in R. apply R. lia. }
  rewrite Lp in AR. split; [exact AR|]. intros w Lw. apply at1_ext; [unfold permuted; rewrite map_length, L; lia|]. intros k Hk.
  destruct (at1_onto _ _ k A') as (i & Hi & <-); [lia|]. assert (Hr : 1 <= at1 p i <= length p) by (apply A'; apply at1_in; lia).
  rewrite permuted_at1 by (rewrite L; exact Hr). rewrite Q by exact Hi. rewrite permuted_at1 by exact Hi. reflexivity.
Qed.
(** sum_shift adds a multiple of a window of A, transposed the other way round: index i of A is index perm(i) of the window. *)
Theorem C36_sum_shift : forall order (a_shape b_shape b_shifts : list nat) str beta (a b : nat -> R),
  let perm := gen_perm_array str in
  1 <= length a_shape -> arrangement (length a_shape) perm -> length b_shape = length a_shape -> length b_shifts = length a_shape ->
  (forall d, In d b_shape -> 1 <= d) -> schedule (size_outer_shift b_shape (sum_shift_perm str)) order ->
  (forall y, in_bounds b_shape y ->
     sum_shift order a_shape b_shape b_shifts str beta a b (offset b_shape y) = (b (offset b_shape y) + beta * a (offset a_shape (permuted perm (plus y b_shifts))))%R) /\
  (forall q, total b_shape <= q -> sum_shift order a_shape b_shape b_shifts str beta a b q = b q).
Proof.
  intros order a_shape b_shape b_shifts str beta a b perm L1 A Lb Ls Pos S. destruct (sum_shift_perm_arr _ _ A) as (A2 & Inv).
  destruct (shift_general R order a_shape b_shape b_shifts (sum_shift_perm str) (fun v o => (v + beta * a o)%R) b L1 A2 Lb Ls Pos S) as (G1 & G2). split; [|exact G2].
  intros y B. apply G1; [exact B| |].
  - unfold permuted. rewrite map_length. apply A.
  - apply Inv. unfold plus. rewrite map_length, combine_length, (in_bounds_length _ _ B). lia.
Qed.
Example C36_instance : arrangement 3 (gen_perm_array "231") /\ permuted (gen_perm_array "231") [2; 3; 4] = [3; 4; 2] /\
  size_outer [2; 3; 4] (gen_perm_array "231") = 8 /\
  map (reorder_stripe [7; 0; 3; 2; 5; 4; 1; 6] [2; 3; 4] "231" (fun p => p) (fun _ => 99)) (seq 0 6) = [0; 2; 4; 6; 8; 10] /\
  reorder_stripe [7; 0; 3; 2; 5; 4; 1; 6] [2; 3; 4] "231" (fun p => p) (fun _ => 99) (offset [3; 4; 2] [2; 1; 1]) = offset [2; 3; 4] [1; 2; 1].
Proof. repeat split; try reflexivity; try (cbn; repeat constructor; cbn; lia); cbn in H; lia. Qed.
Example C36_shift_instance : size_outer_shift [2; 3] (gen_perm_array "21") = 3 /\
  map (reorder_shift [2; 0; 1] [5; 4] [2; 3] [1; 2] "21" (fun p => p) (fun _ => 99)) (seq 0 7) = [7; 12; 8; 13; 9; 14; 99] /\
  permuted (gen_perm_array "21") [2; 1] = plus [0; 0] [1; 2].
Proof. repeat split; reflexivity. Qed.

(** reorder4 and sum4 follow the same convention on four-index tensors (indices from 1). *)
Definition in_box (s1 s2 s3 s4 : nat) (vec : list nat) : Prop :=
  exists i j k l, vec = [i; j; k; l] /\ 1 <= i <= s1 /\ 1 <= j <= s2 /\ 1 <= k <= s3 /\ 1 <= l <= s4.
Lemma in_indices4 : forall s1 s2 s3 s4 vec, In vec (indices4 s1 s2 s3 s4) <-> in_box s1 s2 s3 s4 vec.
Proof.
  intros s1 s2 s3 s4 vec. unfold indices4, in_box. split.
  - intros H. apply in_flat_map in H. destruct H as (i & Hi & H). apply in_flat_map in H. destruct H as (j & Hj & H). apply in_flat_map in H. destruct H as (k & Hk & H).
    apply in_map_iff in H. destruct H as (l & <- & Hl). rewrite in_seq in *. exists i, j, k, l. repeat split; lia.
  - intros (i & j & k & l & -> & Hi & Hj & Hk & Hl). apply in_flat_map. exists i. split; [apply in_seq; lia|]. apply in_flat_map. exists j. split; [apply in_seq; lia|].
    apply in_flat_map. exists k. split; [apply in_seq; lia|]. apply in_map_iff. exists l. split; [reflexivity|]. apply in_seq. lia.
Qed.
Lemma nodup_indices4 : forall s1 s2 s3 s4, NoDup (indices4 s1 s2 s3 s4).
Proof.
  assert (G : forall (A B : Type) (f : A -> list B) (l : list A), NoDup l -> (forall a, In a l -> NoDup (f a)) ->
    (forall a b z, In z (f a) -> In z (f b) -> a = b) -> NoDup (flat_map f l)).
  { intros A B f l N. induction N as [|a l Na N IH]; intros H1 H2; [constructor|]. cbn [flat_map].
    assert (K : forall (u v : list B), NoDup u -> NoDup v -> (forall z, In z u -> ~ In z v) -> NoDup (u ++ v)).
    { induction u as [|z u IHu]; intros v Nu Nv D; [exact Nv|]. inversion Nu; subst. cbn. constructor.
      - intros C. apply in_app_or in C. destruct C as [C|C]; [auto|]. apply (D z); [now left|exact C].
      - apply IHu; auto. intros w Hw. apply D. now right. }
    apply K; [apply H1; now left|apply IH; auto; intros; apply H1; now right|]. intros z Hz C. apply in_flat_map in C. destruct C as (b & Hb & C).
    rewrite (H2 a b z Hz C) in Na. auto. }
  intros s1 s2 s3 s4. unfold indices4. apply G; [apply seq_NoDup| |].
  - intros i _. apply G; [apply seq_NoDup| |].
    + intros j _. apply G; [apply seq_NoDup| |].
      * intros k _. apply FinFun.Injective_map_NoDup; [intros u v E; now injection E|apply seq_NoDup].
      * intros u v z Hu Hv. apply in_map_iff in Hu, Hv. destruct Hu as (? & <- & _). destruct Hv as (? & E & _). now injection E.
    + intros u v z Hu Hv. apply in_flat_map in Hu, Hv. destruct Hu as (? & _ & Hu). destruct Hv as (? & _ & Hv). apply in_map_iff in Hu, Hv.
      destruct Hu as (? & <- & _). destruct Hv as (? & E & _). now injection E.
  - intros u v z Hu Hv. apply in_flat_map in Hu, Hv. destruct Hu as (? & _ & Hu). destruct Hv as (? & _ & Hv). apply in_flat_map in Hu, Hv.
    destruct Hu as (? & _ & Hu). destruct Hv as (? & _ & Hv). apply in_map_iff in Hu, Hv. destruct Hu as (? & <- & _). destruct Hv as (? & E & _). now injection E.
Qed.
Lemma idx_eqb_refl : forall u, idx_eqb u u = true. Proof. intros u. unfold idx_eqb. destruct (list_eq_dec Nat.eq_dec u u); [reflexivity|congruence]. Qed.
Lemma idx_eqb_neq : forall u v, u <> v -> idx_eqb u v = false. Proof. intros u v H. unfold idx_eqb. destruct (list_eq_dec Nat.eq_dec u v); [congruence|reflexivity]. Qed.
Lemma pick_inj : forall iorder u v, arrangement 4 iorder -> length u = 4 -> length v = 4 -> pick iorder u = pick iorder v -> u = v.
Proof.
  intros iorder u v A Lu Lv E. apply at1_ext; [lia|]. intros k Hk. destruct (at1_onto 4 iorder k A) as (i & Hi & <-); [lia|].
  assert (L : length iorder = 4) by apply A. change (permuted iorder u = permuted iorder v) in E. rewrite <- !permuted_at1 by lia. now rewrite E.
Qed.
Theorem C36_reorder4 : forall V (zero : V) s1 s2 s3 s4 x iorder, arrangement 4 iorder ->
  (forall vec, in_box s1 s2 s3 s4 vec -> reorder4 zero s1 s2 s3 s4 x iorder (permuted iorder vec) = x vec) /\
  (forall u, (forall vec, in_box s1 s2 s3 s4 vec -> u <> permuted iorder vec) -> reorder4 zero s1 s2 s3 s4 x iorder u = zero).
Proof.
  intros V zero s1 s2 s3 s4 x iorder A. unfold reorder4.
  assert (G : forall l y, NoDup l -> (forall vec, In vec l -> length vec = 4) ->
    (forall vec, In vec l -> fold_left (fun y vec => fun u => if idx_eqb u (pick iorder vec) then x vec else y u) l y (pick iorder vec) = x vec) /\
    (forall u, (forall vec, In vec l -> u <> pick iorder vec) -> fold_left (fun y vec => fun u => if idx_eqb u (pick iorder vec) then x vec else y u) l y u = y u)).
  { induction l as [|w l IH]; intros y N L4; [split; [intros ? []|reflexivity]|]. cbn [fold_left]. inversion N; subst.
    destruct (IH (fun u => if idx_eqb u (pick iorder w) then x w else y u) H2 (fun v Hv => L4 v (or_intror Hv))) as (I1 & I2). split.
    - intros vec [->|I]; [|now apply I1]. rewrite I2; [now rewrite idx_eqb_refl|]. intros v Hv E. apply pick_inj in E; [|exact A|apply L4; now left|apply L4; now right]. subst v. auto.
    - intros u Hu. rewrite I2 by (intros v Hv; apply Hu; now right). rewrite idx_eqb_neq; [reflexivity|]. apply Hu. now left. }
  assert (L4 : forall vec, In vec (indices4 s1 s2 s3 s4) -> length vec = 4) by (intros vec Hv; apply in_indices4 in Hv; destruct Hv as (i & j & k & l & -> & _); reflexivity).
  destruct (G _ (fun _ => zero) (nodup_indices4 s1 s2 s3 s4) L4) as (G1 & G2). split.
  - intros vec Hv. apply G1. now apply in_indices4.
  - intros u Hu. apply G2. intros vec Hv. apply Hu. now apply in_indices4.
Qed.
Theorem C36_sum4 : forall s1 s2 s3 s4 x y iorder,
  (forall vec, in_box s1 s2 s3 s4 vec -> sum4 s1 s2 s3 s4 x y iorder vec = (x vec + y (permuted iorder vec))%R) /\
  (forall u, ~ in_box s1 s2 s3 s4 u -> sum4 s1 s2 s3 s4 x y iorder u = x u).
Proof.
  intros s1 s2 s3 s4 x y iorder. unfold sum4.
  assert (G : forall l x, NoDup l ->
    (forall vec, In vec l -> fold_left (fun x vec => fun u => if idx_eqb u vec then (x vec + y (pick iorder vec))%R else x u) l x vec = (x vec + y (permuted iorder vec))%R) /\
    (forall u, ~ In u l -> fold_left (fun x vec => fun u => if idx_eqb u vec then (x vec + y (pick iorder vec))%R else x u) l x u = x u)).
  { clear. induction l as [|w l IH]; intros x N; [split; [intros ? []|reflexivity]|]. cbn [fold_left]. inversion N; subst.
    destruct (IH (fun u => if idx_eqb u w then (x w + y (pick iorder w))%R else x u) H2) as (I1 & I2). split.
    - intros vec [->|I]; [rewrite I2 by assumption; now rewrite idx_eqb_refl|]. rewrite I1 by exact I. rewrite idx_eqb_neq; [reflexivity|]. intros ->. auto.
    - intros u Hu. rewrite I2 by (intros I; apply Hu; now right). rewrite idx_eqb_neq; [reflexivity|]. intros ->. apply Hu. now left. }
  destruct (G _ x (nodup_indices4 s1 s2 s3 s4)) as (G1 & G2). split.
  - intros vec Hv. apply G1. now apply in_indices4.
  - intros u Hu. apply G2. intros I. apply Hu. now apply in_indices4.
Qed.
Example C36_four_instance : arrangement 4 [3; 1; 4; 2] /\ reorder4 0 2 3 2 1 (fun v => at1 v 1 + 10 * at1 v 2 + 100 * at1 v 3) [3; 1; 4; 2] [1; 2; 1; 3] = 132.
Proof. split; [|reflexivity]. split; [reflexivity|]. split; [repeat constructor; cbn; lia|]. cbn. intros; lia. Qed.

(** * C58: reordering of P-space amplitudes. *)
Section C58.
Variables (row V : Type) (eqb : row -> row -> bool) (d : row * V).
Hypothesis eqb_ok : forall x y, eqb x y = true <-> x = y.
Notation swap := (swap d). Notation run := (reorder_amplitudes eqb d).
Lemma swap_length : forall l i j, 1 <= i <= length l -> 1 <= j <= length l -> length (swap l i j) = length l.
Proof. intros l i j Hi Hj. unfold ReorderModel.swap. rewrite !set1_length; [reflexivity|exact Hj|rewrite set1_length by exact Hj; exact Hi]. Qed.
Lemma nth_swap : forall l i j q, 1 <= i <= length l -> 1 <= j <= length l ->
  nth q (swap l i j) d = if q =? i - 1 then nth (j - 1) l d else if q =? j - 1 then nth (i - 1) l d else nth q l d.
Proof.
  intros l i j q Hi Hj. unfold ReorderModel.swap. rewrite nth_set1 by (rewrite set1_length by exact Hj; exact Hi). destruct (q =? i - 1); [reflexivity|]. now rewrite nth_set1 by exact Hj.
Qed.
Lemma swap_perm : forall l i j, 1 <= i <= length l -> 1 <= j <= length l -> Permutation l (swap l i j).
Proof.
  intros l i j Hi Hj. apply (Permutation_nth l (swap l i j) d). split; [now apply swap_length|].
  exists (fun q => if q =? i - 1 then j - 1 else if q =? j - 1 then i - 1 else q). split; [|split].
  - intros q Hq. destruct (q =? i - 1); [lia|]. destruct (q =? j - 1); lia.
  - intros p q Hp Hq. destruct (Nat.eqb_spec p (i - 1)), (Nat.eqb_spec p (j - 1)), (Nat.eqb_spec q (i - 1)), (Nat.eqb_spec q (j - 1)); lia.
  - intros q Hq. rewrite nth_swap by assumption. destruct (q =? i - 1); [reflexivity|]. destruct (q =? j - 1); reflexivity.
Qed.
Lemma inner_perm : forall x i js l, 1 <= i <= length l -> (forall j, In j js -> 1 <= j <= length l) ->
  Permutation l (fold_left (fun l j => if eqb x (fst (nth (j - 1) l d)) then swap l i j else l) js l).
Proof.
  induction js as [|j js IH]; intros l Hi Hj; [apply Permutation_refl|]. cbn [fold_left]. destruct (eqb x (fst (nth (j - 1) l d))).
  - pose proof (swap_perm l i j Hi (Hj j (or_introl eq_refl))) as P. apply perm_trans with (swap l i j); [exact P|]. apply Permutation_length in P.
    apply IH; rewrite <- P; [exact Hi|]. intros k Hk. apply Hj. now right.
  - apply IH; [exact Hi|]. intros k Hk. apply Hj. now right.
Qed.
(** Whatever the two lists, excitations and amplitudes are rearranged together; none is lost or duplicated. *)
Theorem C58_rearrangement : forall l t, length t = length l -> Permutation l (run l t).
Proof.
  intros l t L. unfold reorder_amplitudes.
  assert (G : forall is l', length l' = length l -> (forall i, In i is -> 1 <= i <= length l) ->
    Permutation l' (fold_left (fun l idet => fold_left (fun l jdet => if eqb (nth (idet - 1) t (fst d)) (fst (nth (jdet - 1) l d)) then swap l idet jdet else l) (seq 1 (length t)) l) is l')).
  { induction is as [|i is IH]; intros l' Ll Hi; [apply Permutation_refl|]. cbn [fold_left].
    match goal with |- Permutation _ (fold_left _ _ ?m) => assert (P : Permutation l' m) end.
    { apply inner_perm; [rewrite Ll; apply Hi; now left|]. intros j Hj. apply in_seq in Hj. lia. }
    eapply perm_trans; [exact P|]. apply IH; [rewrite <- (Permutation_length P); exact Ll|]. intros k Hk. apply Hi. now right. }
  apply G; [reflexivity|]. intros i Hi. apply in_seq in Hi. lia.
Qed.
(** When both lists hold the same distinct excitations, the result is the target list, each excitation with its own amplitude. *)
Theorem C58_follows_target : forall l t, NoDup t -> Permutation (map fst l) t -> map fst (run l t) = t /\ Permutation l (run l t).
Proof.
  intros l t N P. assert (L : length t = length l) by (rewrite <- (Permutation_length P); apply map_length). split; [|now apply C58_rearrangement].
  (* scanning positions js with the target at position p0 *)
  assert (SCAN : forall x i p0 js l', 1 <= i <= length l' -> 1 <= p0 <= length l' -> fst (nth (p0 - 1) l' d) = x -> NoDup (map fst l') -> NoDup js ->
    (forall j, In j js -> 1 <= j <= length l') -> (p0 = i -> fold_left (fun l j => if eqb x (fst (nth (j - 1) l d)) then swap l i j else l) js l' = l') /\
    (~ In i js -> In p0 js -> fold_left (fun l j => if eqb x (fst (nth (j - 1) l d)) then swap l i j else l) js l' = swap l' i p0)).
  { intros x i p0 js l' Hi Hp Ex Nl Nj Hj.
    assert (Only : forall m j, NoDup (map fst m) -> 1 <= j <= length m -> forall p, 1 <= p <= length m -> fst (nth (p - 1) m d) = fst (nth (j - 1) m d) -> p = j).
    { intros m j Nm Hj' p Hp' E. assert (p - 1 = j - 1); [|lia]. apply (proj1 (NoDup_nth (map fst m) (fst d)) Nm); rewrite ?map_length; try lia.
      rewrite !(map_nth fst). exact E. }
    assert (SELF : forall js m, 1 <= i <= length m -> NoDup (map fst m) -> fst (nth (i - 1) m d) = x -> (forall j, In j js -> 1 <= j <= length m) ->
      fold_left (fun l j => if eqb x (fst (nth (j - 1) l d)) then swap l i j else l) js m = m).
    { induction js0 as [|j js0 IH]; intros m Hm Nm Em Hjm; [reflexivity|]. cbn [fold_left]. destruct (eqb x (fst (nth (j - 1) m d))) eqn:Q.
      - apply eqb_ok in Q. assert (i = j) by (apply (Only m j Nm); [apply Hjm; now left|exact Hm|congruence]). subst j.
        assert (Sw : swap m i i = m).
        { apply (list_eq_nth d); [now apply swap_length|]. intros q Hq. rewrite nth_swap by assumption. destruct (Nat.eqb_spec q (i - 1)) as [->|]; reflexivity. }
        rewrite Sw. apply IH; auto. intros k Hk. apply Hjm. now right.
      - apply IH; auto. intros k Hk. apply Hjm. now right. }
    split; [intros ->; now apply SELF|]. intros NI Ip. revert Nj NI Ip Hj. induction js as [|j js IH]; intros Nj NI Ip Hj; [destruct Ip|]. cbn [fold_left]. inversion Nj; subst.
    destruct (eqb (fst (nth (p0 - 1) l' d)) (fst (nth (j - 1) l' d))) eqn:Q.
    - apply eqb_ok in Q. assert (p0 = j) by (apply (Only l' j Nl); [apply Hj; now left|exact Hp|exact Q]). subst j.
      pose proof (swap_perm l' i p0 Hi Hp) as PS. assert (LS := Permutation_length PS).
      apply SELF; rewrite <- ?LS; auto.
      + eapply Permutation_NoDup; [apply Permutation_map; exact PS|exact Nl].
      + rewrite nth_swap by assumption. now rewrite Nat.eqb_refl.
      + intros k Hk. apply Hj. now right.
    - apply IH; auto.
      + intros I. apply NI. now right.
      + destruct Ip as [->|I]; [|exact I]. rewrite (proj2 (eqb_ok _ _) eq_refl) in Q. discriminate Q.
      + intros k Hk. apply Hj. now right. }
  (* a full scan at position i when the target is at or after i puts it there and moves only these two positions *)
  assert (FULL : forall i p0 l', length l' = length l -> NoDup (map fst l') -> 1 <= i -> i <= p0 <= length l -> fst (nth (p0 - 1) l' d) = nth (i - 1) t (fst d) ->
    fold_left (fun l j => if eqb (nth (i - 1) t (fst d)) (fst (nth (j - 1) l d)) then swap l i j else l) (seq 1 (length t)) l' = swap l' i p0).
  { intros i p0 l' Ll Nl Hi Hp E. assert (Sp : seq 1 (length t) = seq 1 i ++ seq (S i) (length t - i)) by (rewrite <- seq_app; f_equal; lia). rewrite Sp, fold_left_app.
    destruct (Nat.eq_dec p0 i) as [->|NE].
    - rewrite (proj1 (SCAN _ i i (seq 1 i) l' ltac:(lia) ltac:(lia) E Nl (seq_NoDup _ _) ltac:(intros j Hj; apply in_seq in Hj; lia)) eq_refl).
      rewrite (proj1 (SCAN _ i i (seq (S i) (length t - i)) l' ltac:(lia) ltac:(lia) E Nl (seq_NoDup _ _) ltac:(intros j Hj; apply in_seq in Hj; lia)) eq_refl).
      apply (list_eq_nth d); [symmetry; apply swap_length; lia|]. intros q Hq. rewrite nth_swap by lia. destruct (Nat.eqb_spec q (i - 1)) as [->|]; reflexivity.
    - assert (PRE : fold_left (fun l j => if eqb (nth (i - 1) t (fst d)) (fst (nth (j - 1) l d)) then swap l i j else l) (seq 1 i) l' = l').
      { assert (Q : forall js, (forall j, In j js -> 1 <= j <= i) -> fold_left (fun l j => if eqb (nth (i - 1) t (fst d)) (fst (nth (j - 1) l d)) then swap l i j else l) js l' = l').
        { induction js as [|j js IH]; intros Hj; [reflexivity|]. cbn [fold_left]. destruct (eqb (nth (i - 1) t (fst d)) (fst (nth (j - 1) l' d))) eqn:Q.
          - apply eqb_ok in Q. exfalso. assert (p0 - 1 = j - 1); [|specialize (Hj j (or_introl eq_refl)); lia]. specialize (Hj j (or_introl eq_refl)).
            apply (proj1 (NoDup_nth (map fst l') (fst d)) Nl); rewrite ?map_length; try lia. rewrite !(map_nth fst). congruence.
          - apply IH. intros k Hk. apply Hj. now right. }
        apply Q. intros j Hj. apply in_seq in Hj. lia. }
      rewrite PRE. apply (proj2 (SCAN _ i p0 (seq (S i) (length t - i)) l' ltac:(lia) ltac:(lia) E Nl (seq_NoDup _ _) ltac:(intros j Hj; apply in_seq in Hj; lia))).
      + rewrite in_seq. lia.
      + rewrite in_seq. lia. }
  assert (OUTER : forall k, k <= length t ->
    let m := fold_left (fun l idet => fold_left (fun l jdet => if eqb (nth (idet - 1) t (fst d)) (fst (nth (jdet - 1) l d)) then swap l idet jdet else l) (seq 1 (length t)) l) (seq 1 k) l in
    Permutation l m /\ forall q, q < k -> fst (nth q m d) = nth q t (fst d)).
  { induction k as [|k IH]; intros Hk; [split; [apply Permutation_refl|lia]|]. cbn zeta. rewrite seq_S, fold_left_app. cbn [fold_left]. destruct IH as (P1 & Q1); [lia|].
    set (m := fold_left _ (seq 1 k) l) in *. assert (Lm := Permutation_length P1). assert (Nm : NoDup (map fst m)).
    { eapply Permutation_NoDup; [|exact N]. eapply perm_trans; [apply Permutation_sym; exact P|]. now apply Permutation_map. }
    assert (I : In (nth k t (fst d)) (map fst m)).
    { apply (Permutation_in _ (Permutation_map fst P1)). apply (Permutation_in _ (Permutation_sym P)). apply nth_In. lia. }
    apply (In_nth _ _ (fst d)) in I. destruct I as (q0 & Hq0 & Eq). rewrite map_length in Hq0. rewrite (map_nth fst) in Eq.
    assert (Gq : k <= q0). { destruct (le_lt_dec k q0) as [|C]; [assumption|]. exfalso. rewrite (Q1 q0 C) in Eq. apply (proj1 (NoDup_nth t (fst d)) N) in Eq; lia. }
    rewrite (FULL (1 + k) (S q0) m); [|lia|exact Nm|lia|lia|rewrite !Nat.sub_1_r; exact Eq]. split.
    - eapply perm_trans; [exact P1|]. apply swap_perm; lia.
    - intros q Hq. rewrite nth_swap by lia. destruct (Nat.eqb_spec q (1 + k - 1)) as [->|NE]; [rewrite Nat.sub_1_r; cbn [pred]; rewrite Eq; f_equal; lia|].
      destruct (Nat.eqb_spec q (S q0 - 1)); [lia|]. apply Q1. lia. }
  destruct (OUTER (length t) (Nat.le_refl _)) as (PF & QF). fold (run l t) in PF, QF.
  apply (list_eq_nth (fst d)); rewrite map_length, <- (Permutation_length PF); [lia|]. intros q Hq. rewrite (map_nth fst). apply QF. lia.
Qed.
End C58.
Example C58_instance : NoDup [[1; 2]; [1; 3]; [2; 3]] /\
  reorder_amplitudes idx_eqb (@nil nat, 0) [([2; 3], 7); ([1; 2], 5); ([1; 3], 6)] [[1; 2]; [1; 3]; [2; 3]] = [([1; 2], 5); ([1; 3], 6); ([2; 3], 7)].
Proof. split; [|reflexivity]. repeat constructor; cbn; intuition discriminate. Qed.

Print Assumptions C37_permute. Print Assumptions C37_inverse_after_permute. Print Assumptions C37_permute_after_inverse.
Print Assumptions C36_permutation_string. Print Assumptions C36_reorder_stripe. Print Assumptions C36_reorder_shift. Print Assumptions C36_sum_stripe. Print Assumptions C36_sum_shift.
Print Assumptions C36_reorder4. Print Assumptions C36_sum4. Print Assumptions C58_rearrangement. Print Assumptions C58_follows_target.
