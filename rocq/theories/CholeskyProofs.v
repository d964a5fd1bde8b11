From Coq Require Import Reals Arith Bool Lia Lra List.
From Verif Require Import Base RSum DiisModel CholeskyModel CholeskySpec.
Import ListNotations.
Local Open Scope nat_scope.
Open Scope R_scope.

(** ** argmax *)
Lemma argmax_lt : forall len f, (0 < len)%nat -> (argmax len f < len)%nat.
Proof.
  induction len as [|[|k] IH]; intros f H; [lia|simpl; lia|].
  change (argmax (S (S k)) f) with (let b := argmax (S k) f in if Rlt_dec (f b) (f (S k)) then S k else b). cbv zeta.
  specialize (IH f ltac:(lia)). destruct (Rlt_dec _ _); lia.
Qed.
Lemma argmax_max : forall len f i, (i < len)%nat -> f i <= f (argmax len f).
Proof.
  induction len as [|[|k] IH]; intros f i H; [lia| |].
  - assert (i = 0%nat) by lia. subst. simpl. lra.
  - change (argmax (S (S k)) f) with (let b := argmax (S k) f in if Rlt_dec (f b) (f (S k)) then S k else b). cbv zeta.
    assert (Hi : (i < S k)%nat \/ i = S k) by lia.
    destruct (Rlt_dec _ _) as [L|L]; destruct Hi as [Hi| ->]; try lra.
    + specialize (IH f i Hi). lra.
    + apply IH; exact Hi.
Qed.

(** ** One elimination step on a symmetric positive semidefinite matrix *)
Definition quad (N : nat) (E : nat -> nat -> R) (x : nat -> R) : R := sumn N (fun i => sumn N (fun j => x i * E i j * x j)).
Lemma quad_shift : forall N E x t p, symmetric N E -> (p < N)%nat ->
  quad N E (fun i => x i + (if Nat.eqb i p then t else 0)) = quad N E x + 2 * t * sumn N (fun j => E p j * x j) + t * t * E p p.
Proof.
  intros N E x t p Hs Hp. unfold quad.
  rewrite (sumn_ext _ _ (fun i => (sumn N (fun j => x i * E i j * x j) + t * (x i * E i p))
      + ((if Nat.eqb i p then t * sumn N (fun j => E i j * x j) + t * t * E i p else 0)))).
  - rewrite sumn_plus, sumn_plus, sumn_scal, (sumn_delta_f N p (fun i => t * sumn N (fun j => E i j * x j) + t * t * E i p) Hp).
    assert (HS : sumn N (fun i => x i * E i p) = sumn N (fun j => E p j * x j)).
    { apply sumn_ext. intros i Hi. rewrite (Hs i p Hi Hp). ring. }
    rewrite HS. ring.
  - intros i Hi.
    assert (K : forall u, sumn N (fun j => u * E i j * (x j + (if Nat.eqb j p then t else 0))) = sumn N (fun j => u * E i j * x j) + t * (u * E i p)).
    { intros u. rewrite (sumn_ext _ _ (fun j => u * E i j * x j + (if Nat.eqb j p then u * E i j * t else 0))).
      - rewrite sumn_plus, (sumn_delta_f N p (fun j => u * E i j * t) Hp). ring.
      - intros j Hj. destruct (Nat.eqb j p); ring. }
    rewrite K. destruct (Nat.eqb i p).
    + rewrite (sumn_ext _ _ (fun j => x i * E i j * x j + t * (E i j * x j))) by (intros; ring).
      rewrite sumn_plus, sumn_scal. ring.
    + rewrite (sumn_ext N (fun j => (x i + 0) * E i j * x j) (fun j => x i * E i j * x j)) by (intros; ring). ring.
Qed.
Definition elim (E : nat -> nat -> R) (v : nat -> R) : nat -> nat -> R := fun i j => E i j - v i * v j.
Definition pivot_vec (E : nat -> nat -> R) (p : nat) : nat -> R := fun j => E p j / sqrt (E p p).
Lemma elim_sym : forall N E v, symmetric N E -> symmetric N (elim E v).
Proof. intros N E v H i j Hi Hj. unfold elim. rewrite (H i j Hi Hj). ring. Qed.
Lemma elim_psd : forall N E p v, symmetric N E -> positive_semidefinite N E -> (p < N)%nat -> 0 < E p p ->
  (forall j, (j < N)%nat -> v j = pivot_vec E p j) -> positive_semidefinite N (elim E v).
Proof.
  intros N E p v Hs HP Hp Hpos Hv x.
  set (t := - sumn N (fun j => E p j * x j) / E p p).
  pose proof (HP (fun i => x i + (if Nat.eqb i p then t else 0))) as Q. change (0 <= quad N E (fun i => x i + (if Nat.eqb i p then t else 0))) in Q.
  rewrite (quad_shift N E x t p Hs Hp) in Q.
  assert (HE : sumn N (fun i => sumn N (fun j => x i * elim E v i j * x j)) = quad N E x - (sumn N (fun j => E p j * x j)) ^ 2 / E p p).
  { unfold elim, quad. rewrite (sumn_ext _ _ (fun i => sumn N (fun j => x i * E i j * x j) - sumn N (fun j => (x i * v i) * (x j * v j)))).
    - rewrite sumn_minus. f_equal. rewrite <- sumn_mult.
      assert (HV : sumn N (fun i => x i * v i) = sumn N (fun j => E p j * x j) / sqrt (E p p)).
      { unfold Rdiv. rewrite <- sumn_scal_r. apply sumn_ext. intros i Hi. rewrite (Hv i Hi). unfold pivot_vec. field.
        intro K. apply sqrt_eq_0 in K; lra. }
      rewrite HV. assert (Hq : sqrt (E p p) * sqrt (E p p) = E p p) by (apply sqrt_sqrt; lra).
      rewrite <- Hq at 3. field. intro K. apply sqrt_eq_0 in K; lra.
    - intros i Hi. rewrite <- sumn_minus. apply sumn_ext. intros. ring. }
  rewrite HE. replace (quad N E x - _) with (quad N E x + 2 * t * sumn N (fun j => E p j * x j) + t * t * E p p); [exact Q|].
  unfold t. field. lra.
Qed.
Lemma elim_pivot : forall N E p v, symmetric N E -> (p < N)%nat -> 0 < E p p -> (forall j, (j < N)%nat -> v j = pivot_vec E p j) ->
  forall j, (j < N)%nat -> elim E v p j = 0.
Proof.
  intros N E p v Hs Hp Hpos Hv j Hj. unfold elim. rewrite !Hv by assumption. unfold pivot_vec.
  assert (Hq : sqrt (E p p) * sqrt (E p p) = E p p) by (apply sqrt_sqrt; lra).
  assert (sqrt (E p p) <> 0) by (intro K; apply sqrt_eq_0 in K; lra).
  assert (Hf : E p p / sqrt (E p p) = sqrt (E p p)).
  { apply Rmult_eq_reg_r with (sqrt (E p p)); [|assumption]. unfold Rdiv. rewrite Rmult_assoc, Rinv_l by assumption. rewrite Hq. ring. }
  rewrite Hf. field. assumption.
Qed.
Lemma elim_zero_row : forall N E p v q, symmetric N E -> (p < N)%nat -> (q < N)%nat -> (forall j, (j < N)%nat -> v j = pivot_vec E p j) ->
  (forall j, (j < N)%nat -> E q j = 0) -> forall j, (j < N)%nat -> elim E v q j = 0.
Proof.
  intros N E p v q Hs Hp Hq Hv Hz j Hj. unfold elim. rewrite (Hz j Hj), (Hv q Hq). unfold pivot_vec. rewrite (Hs p q Hp Hq), (Hz p Hp).
  unfold Rdiv. ring.
Qed.
Lemma psd_diag : forall N E i, positive_semidefinite N E -> (i < N)%nat -> 0 <= E i i.
Proof.
  intros N E i H Hi. specialize (H (fun k => if Nat.eqb k i then 1 else 0)). cbv beta in H.
  rewrite (sumn_ext _ _ (fun a => if Nat.eqb a i then sumn N (fun j => if Nat.eqb j i then E a j else 0) else 0)) in H.
  - rewrite (sumn_delta_f N i (fun a => sumn N (fun j => if Nat.eqb j i then E a j else 0)) Hi) in H.
    rewrite (sumn_delta_f N i (fun j => E i j) Hi) in H. exact H.
  - intros a Ha. destruct (Nat.eqb a i).
    + apply sumn_ext. intros b Hb. destruct (Nat.eqb b i); ring.
    + apply sumn_0. intros b Hb. ring.
Qed.
Lemma psd_entry : forall N E i j, symmetric N E -> positive_semidefinite N E -> (i < N)%nat -> (j < N)%nat -> E i j * E i j <= E i i * E j j.
Proof.
  intros N E i j Hs HP Hi Hj.
  pose proof (psd_diag N E i HP Hi) as Hii. pose proof (psd_diag N E j HP Hj) as Hjj.
  assert (K : forall s t, 0 <= s * s * E i i + 2 * s * t * E i j + t * t * E j j).
  { intros s t. pose proof (HP (fun k => (fun a => 0 + (if Nat.eqb a i then s else 0)) k + (if Nat.eqb k j then t else 0))) as Q.
    change (0 <= quad N E (fun k => (fun a => 0 + (if Nat.eqb a i then s else 0)) k + (if Nat.eqb k j then t else 0))) in Q.
    rewrite quad_shift in Q by assumption. rewrite (quad_shift N E (fun _ => 0) s i Hs Hi) in Q.
    assert (Z0 : quad N E (fun _ => 0) = 0) by (unfold quad; apply sumn_0; intros; apply sumn_0; intros; ring).
    assert (Z1 : sumn N (fun k => E i k * 0) = 0) by (apply sumn_0; intros; ring).
    assert (Z2 : sumn N (fun k => E j k * (0 + (if Nat.eqb k i then s else 0))) = s * E i j).
    { rewrite (sumn_ext _ _ (fun k => if Nat.eqb k i then E j k * s else 0)) by (intros k _; destruct (Nat.eqb k i); ring).
      rewrite (sumn_delta_f N i (fun k => E j k * s) Hi), (Hs j i Hj Hi). ring. }
    rewrite Z0, Z1, Z2 in Q. lra. }
  destruct (Req_dec (E j j) 0) as [Z|NZ].
  - assert (E i j = 0).
    { pose proof (K (E i j) (- (E i i + 1))) as Q. rewrite Z in Q. pose proof (Rle_0_sqr (E i j)) as Sq. unfold Rsqr in Sq.
      destruct (Req_dec (E i j) 0) as [e|e]; [exact e|]. exfalso.
      assert (0 < E i j * E i j) by (apply Rsqr_pos_lt; exact e).
      nra. }
    rewrite H. rewrite Z. lra.
  - assert (Hp : 0 < E j j) by lra. pose proof (K (E j j) (- E i j)) as Q. nra.
Qed.
Lemma psd_bound : forall N E tol, symmetric N E -> positive_semidefinite N E -> (forall i, (i < N)%nat -> E i i <= tol) ->
  forall i j, (i < N)%nat -> (j < N)%nat -> Rabs (E i j) <= tol.
Proof.
  intros N E tol Hs HP Hd i j Hi Hj.
  pose proof (psd_entry N E i j Hs HP Hi Hj) as K. pose proof (psd_diag N E i HP Hi). pose proof (psd_diag N E j HP Hj).
  pose proof (Hd i Hi). pose proof (Hd j Hj). apply Rabs_le. split; nra.
Qed.
Lemma error_S : forall A L m i j, error A L (S m) i j = elim (error A L m) (L m) i j.
Proof. intros. unfold error, elim. simpl. ring. Qed.
Lemma error_0 : forall A L i j, error A L 0 i j = A i j.
Proof. intros. unfold error. simpl. ring. Qed.
Lemma error_sym : forall N A L m, symmetric N A -> symmetric N (error A L m).
Proof. intros N A L m H i j Hi Hj. unfold error. rewrite (H i j Hi Hj). f_equal. apply sumn_ext. intros; ring. Qed.
Lemma psd_ext : forall N E F, (forall i j, (i < N)%nat -> (j < N)%nat -> E i j = F i j) -> positive_semidefinite N E -> positive_semidefinite N F.
Proof.
  intros N E F H HP x. specialize (HP x). erewrite sumn_ext; [exact HP|]. intros i Hi. cbv beta. apply sumn_ext. intros j Hj.
  cbv beta. rewrite (H i j Hi Hj). reflexivity.
Qed.

(** ** Sums over a permuted index *)
From Coq Require Import Permutation.
Lemma sumn_fold : forall n f, sumn n f = fold_right Rplus 0 (map f (seq 0 n)).
Proof.
  induction n as [|n IH]; intros f; [reflexivity|]. rewrite seq_S, map_app. simpl. rewrite IH.
  assert (K : forall l y, fold_right Rplus 0 (l ++ [y]) = fold_right Rplus 0 l + y).
  { induction l as [|z l IHl]; intros y; simpl; [ring|rewrite IHl; ring]. }
  rewrite K. reflexivity.
Qed.
Lemma fold_perm : forall l l', Permutation l l' -> fold_right Rplus 0 l = fold_right Rplus 0 l'.
Proof. induction 1; simpl; lra. Qed.
Definition bijective (N : nat) (p : nat -> nat) : Prop :=
  (forall k, (k < N)%nat -> (p k < N)%nat) /\ (forall k l, (k < N)%nat -> (l < N)%nat -> p k = p l -> k = l).
Lemma bijective_perm : forall N p, bijective N p -> Permutation (map p (seq 0 N)) (seq 0 N).
Proof.
  intros N p [B I]. apply NoDup_Permutation_bis.
  - assert (G : forall l, (forall x, In x l -> (x < N)%nat) -> NoDup l -> NoDup (map p l)).
    { induction l as [|x l IH]; intros H D; [constructor|]. inversion D; subst. simpl. constructor.
      - intro K. apply in_map_iff in K. destruct K as [y [E Y]]. apply I in E; [subst; contradiction|apply H; right; exact Y|apply H; left; reflexivity].
      - apply IH; [intros; apply H; right; assumption|assumption]. }
    apply G; [intros x Hx; apply in_seq in Hx; lia|apply seq_NoDup].
  - rewrite map_length, seq_length. lia.
  - intros x Hx. apply in_map_iff in Hx. destruct Hx as [k [<- K]]. apply in_seq in K. apply in_seq. specialize (B k). lia.
Qed.
Lemma bijective_onto : forall N p, bijective N p -> forall j, (j < N)%nat -> exists k, (k < N)%nat /\ p k = j.
Proof.
  intros N p H j Hj. assert (K : In j (map p (seq 0 N))) by (apply (Permutation_in _ (Permutation_sym (bijective_perm N p H))), in_seq; lia).
  apply in_map_iff in K. destruct K as [k [E K]]. apply in_seq in K. exists k. split; [lia|exact E].
Qed.
Lemma sumn_bijective : forall N p f, bijective N p -> sumn N (fun k => f (p k)) = sumn N f.
Proof.
  intros N p f H. rewrite !sumn_fold. apply fold_perm. rewrite <- (map_map p f). apply Permutation_map. apply bijective_perm; exact H.
Qed.

(** ** pivoted_chol *)
Section Piv.
Variables (N : nat) (A : nat -> nat -> R).
Hypothesis HA : symmetric N A.
Notation dg := (fun i => A i i).
Record inv (st : chol) : Prop := mkInv {
  i_m : (c_m st <= N)%nat;
  i_bij : bijective N (c_piv st);
  i_zero : forall k j, (k < c_m st)%nat -> (j < N)%nat -> error A (c_R st) (c_m st) (c_piv st k) j = 0;
  i_d : forall k, (c_m st <= k)%nat -> (k < N)%nat -> c_d st (c_piv st k) = error A (c_R st) (c_m st) (c_piv st k) (c_piv st k);
  i_rest : forall k j, (c_m st <= k)%nat -> c_R st k j = 0;
  i_tri : forall k l, (l < k)%nat -> (k < c_m st)%nat -> c_R st k (c_piv st l) = 0;
  i_err : c_err st = sumn N (fun i => Rabs (A i i)) /\ c_m st = 0%nat \/ (c_err st = sumn N (fun i => error A (c_R st) (c_m st) i i)) }.
Lemma inv_init : inv (chol_init N dg).
Proof.
  constructor; simpl; try lia; auto; intros; try lia.
  - split; auto.
  - rewrite error_0. reflexivity.
Qed.
Lemma pivot_facts : forall st, (c_m st < N)%nat -> bijective N (c_piv st) ->
  bijective N (pivot N st) /\ (forall k, (k < c_m st)%nat -> pivot N st k = c_piv st k)
  /\ (forall k, (c_m st <= k)%nat -> (k < N)%nat -> exists k', (c_m st <= k')%nat /\ (k' < N)%nat /\ pivot N st k = c_piv st k')
  /\ (forall k, (c_m st <= k)%nat -> (k < N)%nat -> c_d st (c_piv st k) <= c_d st (pivot N st (c_m st))).
Proof.
  intros st Hm [B I]. unfold pivot. set (m := c_m st) in *. set (f := fun k => c_d st (c_piv st (m + k)%nat)).
  pose proof (argmax_lt (N - m) f ltac:(lia)) as Hlt. pose proof (argmax_max (N - m) f) as Hmax.
  set (a := argmax (N - m) f) in *. set (i := (m + a)%nat).
  assert (Hi : (m <= i < N)%nat) by (unfold i; lia).
  assert (Hv : forall k, (if k =? i then c_piv st m else if k =? m then c_piv st i else c_piv st k)
     = c_piv st (if k =? i then m else if k =? m then i else k)%nat).
  { intros k. destruct (k =? i); [reflexivity|]. destruct (k =? m); reflexivity. }
  assert (Hs : forall k, (k < N)%nat -> ((if k =? i then m else if k =? m then i else k) < N)%nat).
  { intros k Hk. destruct (k =? i)%nat; [lia|]. destruct (k =? m)%nat; lia. }
  split; [split|split; [|split]].
  - intros k Hk. cbv beta. rewrite Hv. apply B, Hs, Hk.
  - intros k l Hk Hl E. cbv beta in E. rewrite !Hv in E. apply I in E; [|apply Hs, Hk|apply Hs, Hl].
    destruct (Nat.eqb_spec k i), (Nat.eqb_spec k m), (Nat.eqb_spec l i), (Nat.eqb_spec l m); subst; lia.
  - intros k Hk. destruct (Nat.eqb_spec k i); [lia|]. destruct (Nat.eqb_spec k m); [lia|reflexivity].
  - intros k Hk Hk2. rewrite Hv. eexists; split; [|split; [|reflexivity]].
    + destruct (Nat.eqb_spec k i); [lia|]. destruct (Nat.eqb_spec k m); lia.
    + apply Hs; exact Hk2.
  - intros k Hk Hk2. specialize (Hmax (k - m)%nat ltac:(lia)). unfold f in Hmax. replace (m + (k - m))%nat with k in Hmax by lia.
    destruct (Nat.eqb_spec m i).
    + replace (m + a)%nat with m in Hmax by (unfold i in *; lia). exact Hmax.
    + rewrite Nat.eqb_refl. exact Hmax.
Qed.
(** the inner loop *)
Lemma inner_run : forall (piv : nat -> nat) m R0 (d0 : vec) len, bijective N piv -> (m + 1 + len <= N)%nat ->
  let s := R0 m (piv m) in
  let val i := (A (piv m) (piv i) - sumn m (fun k => R0 k (piv m) * R0 k (piv i))) / s in
  let Rd := fold_left (inner (fun i => A i) piv m) (seq (m + 1) len) (R0, d0) in
  (forall k j, k <> m -> fst Rd k j = R0 k j)
  /\ (forall i, (i < N)%nat -> (i <= m)%nat \/ (m + 1 + len <= i)%nat -> fst Rd m (piv i) = R0 m (piv i) /\ snd Rd (piv i) = d0 (piv i))
  /\ (forall i, (m + 1 <= i)%nat -> (i < m + 1 + len)%nat -> fst Rd m (piv i) = val i /\ snd Rd (piv i) = d0 (piv i) - val i ^ 2).
Proof.
  intros piv m R0 d0 len [B I]. induction len as [|len IH]; intros HN s val Rd.
  - unfold Rd. simpl. repeat split; intros; try lia; reflexivity.
  - specialize (IH ltac:(lia)). cbv zeta in IH. fold s in IH.
    unfold Rd. rewrite seq_S, fold_left_app. set (X := fold_left _ (seq (m + 1) len) _) in *. destruct X as [R1 d1].
    cbn [fst snd] in IH. destruct IH as (H1 & H2 & H3). cbn [fold_left].
    set (c := (m + 1 + len)%nat) in *.
    assert (Hip : (if (0 <? m)%nat then sumn m (fun k => R1 k (piv m) * R1 k (piv c)) else 0) = sumn m (fun k => R0 k (piv m) * R0 k (piv c))).
    { destruct (Nat.ltb_spec 0 m); [apply sumn_ext; intros k Hk; rewrite !H1 by lia; reflexivity|]. assert (m = 0%nat) by lia. subst m. reflexivity. }
    assert (Hs : R1 m (piv m) = s) by (apply H2; lia).
    assert (HX : inner (fun i => A i) piv m (R1, d1) c = (set_row R1 m (set_at (R1 m) (piv c) ((A (piv m) (piv c) - sumn m (fun k => R0 k (piv m) * R0 k (piv c))) / s)), set_at d1 (piv c) (d1 (piv c) - set_row R1 m (set_at (R1 m) (piv c) ((A (piv m) (piv c) - sumn m (fun k => R0 k (piv m) * R0 k (piv c))) / s)) m (piv c) ^ 2))) by (unfold inner; cbv zeta; rewrite Hip, Hs; reflexivity). rewrite HX. cbn [fst snd].
    assert (Hset : forall j, set_row R1 m (set_at (R1 m) (piv c) ((A (piv m) (piv c) - sumn m (fun k => R0 k (piv m) * R0 k (piv c))) / s)) m j
      = if Nat.eqb j (piv c) then val c else R1 m j).
    { intros j. unfold set_row. rewrite Nat.eqb_refl. reflexivity. }
    split; [|split].
    + intros k j Hk. unfold set_row. destruct (Nat.eqb_spec k m); [contradiction|]. apply H1; exact Hk.
    + intros i Hi Ho. rewrite Hset. unfold set_at. destruct (Nat.eqb_spec (piv i) (piv c)) as [E|E]; [apply I in E; lia|]. apply H2; [exact Hi|lia].
    + intros i Hi Hi2. rewrite !Hset. unfold set_at. rewrite Nat.eqb_refl. destruct (Nat.eqb_spec (piv i) (piv c)) as [E|E].
      * apply I in E; [|lia|lia]. subst i. destruct (H2 c) as [_ H2']; [lia|lia|]. rewrite H2'. split; reflexivity.
      * assert (i <> c) by (intro; subst; contradiction). apply H3; lia.
Qed.

(** what one pass of the loop does: row m becomes the pivot vector of the error matrix *)
Lemma step_row : forall st, inv st -> (c_m st < N)%nat -> is_nan N st = false ->
  let st' := chol_step N (fun i => A i) st in
  let E := error A (c_R st) (c_m st) in
  let p := pivot N st (c_m st) in
  c_m st' = (c_m st + 1)%nat /\ c_piv st' = pivot N st
  /\ (forall k j, k <> c_m st -> c_R st' k j = c_R st k j)
  /\ (forall j, (j < N)%nat -> c_R st' (c_m st) j = pivot_vec E p j)
  /\ (0 <= E p p) /\ (E p p = 0 -> (c_m st + 1 = N)%nat)
  /\ (forall k, (c_m st + 1 <= k)%nat -> (k < N)%nat -> c_d st' (pivot N st k) = E (pivot N st k) (pivot N st k) - c_R st' (c_m st) (pivot N st k) ^ 2)
  /\ c_err st' = sumn (N - (c_m st + 1)) (fun k => c_d st' (pivot N st (c_m st + 1 + k)%nat)).
Proof.
  intros st HI Hm Hn st' E p.
  destruct (pivot_facts st Hm (i_bij st HI)) as (PB & PL & PU & PM).
  set (m := c_m st) in *. set (piv := pivot N st) in *.
  assert (Hd : forall k, (m <= k)%nat -> (k < N)%nat -> c_d st (piv k) = E (piv k) (piv k)).
  { intros k H1 H2. destruct (PU k H1 H2) as [k' (K1 & K2 & ->)]. apply (i_d st HI); assumption. }
  assert (HE : 0 <= E p p /\ (E p p = 0 -> (m + 1 = N)%nat)).
  { unfold is_nan in Hn. fold m piv in Hn. cbv zeta in Hn. rewrite (Hd m) in Hn by lia. fold p in Hn.
    destruct (Rlt_dec (E p p) 0) as [L|L]; [discriminate|]. split; [lra|]. intros Z. destruct (Req_EM_T (E p p) 0); [|contradiction].
    apply Nat.ltb_ge in Hn. lia. }
  destruct HE as [HE0 HE1].
  assert (Ez : forall k, (k < m)%nat -> E p (piv k) = 0).
  { intros k Hk. rewrite ((error_sym N A _ _ HA : symmetric N E) p (piv k)); [|apply PB; lia|apply PB; lia]. unfold E. rewrite (PL k Hk).
    apply (i_zero st HI); [exact Hk|]. apply PB; lia. }
  unfold st', chol_step. fold piv m. cbv zeta.
  set (R0 := set_row (c_R st) m (set_at (c_R st m) (piv m) (sqrt (c_d st (piv m))))).
  pose proof (inner_run piv m R0 (c_d st) (N - (m + 1)) PB ltac:(lia)) as RUN. cbv zeta in RUN.
  destruct (fold_left _ _ _) as [R1 d1]. cbn [fst snd c_m c_piv c_R c_d c_err] in *. destruct RUN as (U1 & U2 & U3).
  assert (R0m : R0 m (piv m) = sqrt (E p p)) by (unfold R0, set_row, set_at; rewrite !Nat.eqb_refl; rewrite (Hd m) by lia; reflexivity).
  assert (R0k : forall k j, k <> m -> R0 k j = c_R st k j) by (intros k j Hk; unfold R0, set_row; destruct (Nat.eqb_spec k m); [contradiction|reflexivity]).
  assert (R0o : forall j, j <> piv m -> R0 m j = 0).
  { intros j Hj. unfold R0, set_row, set_at. rewrite Nat.eqb_refl. destruct (Nat.eqb_spec j (piv m)); [contradiction|]. apply (i_rest st HI). unfold m; lia. }
  assert (Rows : forall j, (j < N)%nat -> R1 m j = pivot_vec E p j).
  { intros j Hj. destruct (bijective_onto N piv PB j Hj) as [k [Hk <-]]. unfold pivot_vec.
    destruct (Nat.lt_trichotomy k m) as [L|[->|G]].
    - destruct (U2 k Hk ltac:(lia)) as [U _]. rewrite U, R0o.
      + rewrite (Ez k L). unfold Rdiv. ring.
      + intro X. apply (proj2 PB) in X; lia.
    - destruct (U2 m Hk ltac:(lia)) as [U _]. rewrite U, R0m. fold p.
      destruct (Req_dec (E p p) 0) as [Z|NZ].
      + rewrite Z, sqrt_0. unfold Rdiv. ring.
      + rewrite <- (sqrt_sqrt (E p p)) at 2 by exact HE0. field. intro X. apply sqrt_eq_0 in X; lra.
    - destruct (U3 k ltac:(lia) ltac:(lia)) as [U _]. rewrite U, R0m. fold p. f_equal. unfold E, error. f_equal.
      apply sumn_ext. intros l Hl. rewrite !R0k by lia. reflexivity. }
  split; [reflexivity|]. split; [reflexivity|]. split; [|split; [exact Rows|split; [exact HE0|split; [exact HE1|split; [|reflexivity]]]]].
  - intros k j Hk. rewrite (U1 k j Hk). apply R0k; exact Hk.
  - intros k K1 K2. destruct (U3 k ltac:(lia) ltac:(lia)) as [U V]. rewrite V, U, (Hd k) by lia. reflexivity.
Qed.
Lemma error_ext : forall L1 L2 m i j, (forall k, (k < m)%nat -> L1 k i = L2 k i /\ L1 k j = L2 k j) -> error A L1 m i j = error A L2 m i j.
Proof. intros L1 L2 m i j H. unfold error. f_equal. apply sumn_ext. intros k Hk. destruct (H k Hk) as [-> ->]. reflexivity. Qed.
Lemma step_error : forall st, inv st -> (c_m st < N)%nat -> is_nan N st = false ->
  let st' := chol_step N (fun i => A i) st in
  forall i j, error A (c_R st') (c_m st') i j = elim (error A (c_R st) (c_m st)) (c_R st' (c_m st)) i j.
Proof.
  intros st HI Hm Hn st' i j. destruct (step_row st HI Hm Hn) as (H1 & H2 & H3 & _). fold st' in H1, H2, H3.
  rewrite H1. rewrite Nat.add_1_r, error_S. unfold elim. f_equal. apply error_ext. intros k Hk. rewrite !H3 by lia. auto.
Qed.
Lemma inv_step : forall st, inv st -> (c_m st < N)%nat -> is_nan N st = false -> inv (chol_step N (fun i => A i) st).
Proof.
  intros st HI Hm Hn. pose proof (step_row st HI Hm Hn) as S. pose proof (step_error st HI Hm Hn) as SE. cbv zeta in S, SE.
  destruct (pivot_facts st Hm (i_bij st HI)) as (PB & PL & PU & PM).
  set (st' := chol_step N (fun i => A i) st) in *. set (E := error A (c_R st) (c_m st)) in *. set (p := pivot N st (c_m st)) in *.
  destruct S as (S1 & S2 & S3 & S4 & S5 & S6 & S7 & S8).
  assert (Hp : (p < N)%nat) by (apply PB; exact Hm).
  assert (Es : symmetric N E) by (apply error_sym; exact HA).
  assert (Z : forall k j, (k < c_m st')%nat -> (j < N)%nat -> error A (c_R st') (c_m st') (c_piv st' k) j = 0).
  { intros k j Hk Hj. rewrite SE, S2. rewrite S1 in Hk. assert (k = c_m st \/ k < c_m st)%nat as [-> | L] by lia.
    - fold p. destruct (Req_dec (E p p) 0) as [Z0|NZ].
      + assert (Ez : forall j, (j < N)%nat -> E p j = 0).
        { intros a Ha. destruct (bijective_onto N _ PB a Ha) as [b [Hb <-]]. specialize (S6 Z0).
          assert (b = c_m st \/ b < c_m st)%nat as [-> | L] by lia; [exact Z0|].
          rewrite (Es p) by (auto; apply PB; exact Hb). unfold E. rewrite (PL b L). apply (i_zero st HI); assumption. }
        unfold elim. rewrite !S4 by assumption. unfold pivot_vec. rewrite !Ez by assumption. unfold Rdiv. ring.
      + apply (elim_pivot N E p); auto. lra.
    - rewrite (PL k L). apply (elim_zero_row N E p); auto.
      + apply (i_bij st HI); lia.
      + intros a Ha. apply (i_zero st HI); assumption. }
  constructor.
  - rewrite S1. lia.
  - rewrite S2. exact PB.
  - exact Z.
  - intros k K1 K2. rewrite SE. rewrite S2 in *. rewrite S1 in K1. rewrite (S7 k K1 K2). unfold elim. fold E. ring.
  - intros k j K. rewrite S1 in K. rewrite S3 by lia. apply (i_rest st HI). lia.
  - intros k l L K. rewrite S1 in K. rewrite S2. assert (k = c_m st \/ k < c_m st)%nat as [-> | K'] by lia.
    + rewrite S4 by (apply PB; lia). unfold pivot_vec. rewrite (Es p) by (auto; apply PB; lia). unfold E. rewrite (PL l L), (i_zero st HI) by (auto; apply PB; lia).
      unfold Rdiv. ring.
    + rewrite S3 by lia. rewrite (PL l) by lia. apply (i_tri st HI); lia.
  - right. rewrite S8. rewrite <- (sumn_bijective N (pivot N st) (fun i => error A (c_R st') (c_m st') i i) PB).
    replace N with ((c_m st + 1) + (N - (c_m st + 1)))%nat at 2 by lia. rewrite sumn_split.
    rewrite (sumn_0 (c_m st + 1)).
    + rewrite Rplus_0_l. apply sumn_ext. intros k Hk. rewrite SE. rewrite (S7 (c_m st + 1 + k)%nat) by lia. unfold elim. fold E. ring.
    + intros k Hk. rewrite <- S2. apply Z; [lia|]. rewrite S2. apply PB. lia.
Qed.

Lemma loop_return : forall rank_max err_tol fuel st L m err, inv st -> (c_m st + fuel = rank_max)%nat ->
  chol_loop N (fun i => A i) err_tol fuel st = CholReturn L m err ->
  exists st', inv st' /\ c_R st' = L /\ c_m st' = m /\ c_err st' = err /\ (m <= rank_max)%nat /\ (err <= err_tol \/ m = rank_max).
Proof.
  intros rank_max err_tol. induction fuel as [|k IH]; intros st L m err HI HF HR; cbn [chol_loop] in HR.
  - injection HR as <- <- <-. exists st. split; [exact HI|]. split; [reflexivity|]. split; [reflexivity|]. split; [reflexivity|]. split; [lia|right; lia].
  - destruct (Rlt_dec err_tol (c_err st)) as [Lt|Ge].
    + destruct (Nat.leb_spec N (c_m st)); [discriminate|]. destruct (is_nan N st) eqn:En; [discriminate|].
      destruct (step_row st HI H En) as (S1 & _).
      apply (IH (chol_step N (fun i => A i) st)); [apply inv_step; assumption|rewrite S1; lia|exact HR].
    + injection HR as <- <- <-. exists st. split; [exact HI|]. split; [reflexivity|]. split; [reflexivity|]. split; [reflexivity|]. split; [lia|left; lra].
Qed.
Definition pinv (st : chol) : Prop := inv st /\ positive_semidefinite N (error A (c_R st) (c_m st)).
Lemma pinv_err : forall st, pinv st -> c_err st = sumn N (fun i => error A (c_R st) (c_m st) i i).
Proof.
  intros st [HI HP]. destruct (i_err st HI) as [[E M]|E]; [|exact E]. rewrite E. apply sumn_ext. intros i Hi.
  pose proof (psd_diag N _ i HP Hi) as D. rewrite M in *. rewrite error_0 in *. apply Rabs_right. lra.
Qed.
Lemma pinv_err_tail : forall st, pinv st -> c_err st = sumn (N - c_m st) (fun k => c_d st (c_piv st (c_m st + k)%nat)).
Proof.
  intros st HP. rewrite (pinv_err st HP). destruct HP as [HI _]. rewrite <- (sumn_bijective N (c_piv st) (fun i => error A (c_R st) (c_m st) i i) (i_bij st HI)).
  pose proof (i_m st HI) as Hm. replace N with (c_m st + (N - c_m st))%nat at 1 by lia. rewrite sumn_split, sumn_0.
  - rewrite Rplus_0_l. apply sumn_ext. intros k Hk. symmetry. apply (i_d st HI); lia.
  - intros k Hk. apply (i_zero st HI); [exact Hk|]. apply (i_bij st HI). lia.
Qed.
Lemma pinv_not_nan : forall st tol, pinv st -> 0 <= tol -> tol < c_err st -> (c_m st < N)%nat /\ is_nan N st = false.
Proof.
  intros st tol HP Ht He. rewrite (pinv_err_tail st HP) in He.
  assert (Hm : (c_m st < N)%nat).
  { destruct (Nat.lt_ge_cases (c_m st) N) as [|G]; [assumption|]. replace (N - c_m st)%nat with 0%nat in He by lia. simpl in He. lra. }
  split; [exact Hm|]. destruct HP as [HI HP]. destruct (pivot_facts st Hm (i_bij st HI)) as (PB & PL & PU & PM).
  unfold is_nan. assert (Pos : 0 < c_d st (pivot N st (c_m st))).
  { apply Rnot_le_lt. intro Neg. assert (sumn (N - c_m st) (fun k => c_d st (c_piv st (c_m st + k)%nat)) <= sumn (N - c_m st) (fun _ => 0)).
    { apply sumn_le. intros k Hk. specialize (PM (c_m st + k)%nat ltac:(lia) ltac:(lia)). lra. }
    rewrite sumn_const0 in H. lra. }
  cbv zeta. destruct (Rlt_dec _ 0); [lra|]. destruct (Req_EM_T _ 0); [lra|reflexivity].
Qed.
Lemma pinv_step : forall st, pinv st -> (c_m st < N)%nat -> is_nan N st = false -> pinv (chol_step N (fun i => A i) st).
Proof.
  intros st [HI HP] Hm Hn. split; [apply inv_step; assumption|].
  destruct (step_row st HI Hm Hn) as (S1 & S2 & S3 & S4 & S5 & S6 & S7 & S8). pose proof (step_error st HI Hm Hn) as SE. cbv zeta in *.
  destruct (pivot_facts st Hm (i_bij st HI)) as (PB & PL & PU & PM).
  eapply psd_ext; [intros i j Hi Hj; symmetry; apply SE|].
  destruct (Req_dec (error A (c_R st) (c_m st) (pivot N st (c_m st)) (pivot N st (c_m st))) 0) as [Z|NZ].
  - apply (psd_ext N (error A (c_R st) (c_m st))); [|exact HP]. intros i j Hi Hj. unfold elim. rewrite (S4 i Hi). unfold pivot_vec. rewrite Z.
    pose proof (psd_entry N _ (pivot N st (c_m st)) i (error_sym N A _ _ HA) HP (proj1 PB _ Hm) Hi) as K. rewrite Z, Rmult_0_l in K.
    assert (error A (c_R st) (c_m st) (pivot N st (c_m st)) i = 0) as -> by nra. unfold Rdiv. ring.
  - apply (elim_psd N _ (pivot N st (c_m st))); auto; [apply error_sym; exact HA|apply PB; exact Hm|lra].
Qed.
Lemma pinv_init : positive_semidefinite N A -> pinv (chol_init N dg).
Proof. intros HP. split; [apply inv_init|]. apply (psd_ext N A); [|exact HP]. intros. simpl. rewrite error_0. reflexivity. Qed.
Lemma ploop : forall err_tol fuel st, 0 <= err_tol -> pinv st ->
  exists st', pinv st' /\ chol_loop N (fun i => A i) err_tol fuel st = CholReturn (c_R st') (c_m st') (c_err st')
    /\ (c_m st' <= c_m st + fuel)%nat /\ (c_err st' <= err_tol \/ c_m st' = (c_m st + fuel)%nat).
Proof.
  intros err_tol. induction fuel as [|k IH]; intros st Ht HP; cbn [chol_loop].
  - exists st. split; [exact HP|]. split; [reflexivity|]. split; [lia|right; lia].
  - destruct (Rlt_dec err_tol (c_err st)) as [Lt|Ge].
    + destruct (pinv_not_nan st err_tol HP Ht Lt) as [Hm Hn]. destruct (Nat.leb_spec N (c_m st)); [lia|]. rewrite Hn.
      destruct (IH _ Ht (pinv_step st HP Hm Hn)) as [st' (P & E & B & D)].
      destruct (step_row st (proj1 HP) Hm Hn) as (S1 & _). rewrite S1 in *. exists st'. split; [exact P|]. split; [exact E|]. split; [lia|].
      destruct D; [left; assumption|right; lia].
    + exists st. split; [exact HP|]. split; [reflexivity|]. split; [lia|left; lra].
Qed.
End Piv.
